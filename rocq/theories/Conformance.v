(** * Tests of the model against the tests of the repository

    First the integration tests: command line, the texts of the input files
    and the expected files, byte for byte.  Then the texts of the unit tests
    with the exception they expect.  These are tests of the model's fidelity,
    not theorems about it. *)
From Verif Require Import Base PyNum PyStr Ast Grammar Size Processor Bundle Sorter
  CCommon GenCfs GenC GenBinary GenCosmos Main Source.
Open Scope string_scope.
Open Scope Z_scope.

(** Does a run, starting in an empty folder, succeed and produce these
    files? *)
Definition produces (a : arguments) (input : disk) (expected : list file) : bool :=
  match main 30 a input [] with
  | (fs, Ok _) =>
      forallb (fun f => match folder_get fs (fst f) with
                        | Some t => String.eqb t (snd f) | None => false end) expected
  | _ => false
  end.
(** Does a run fail and leave the folder empty? *)
Definition fails_with (e : error) (a : arguments) (input : disk) : bool :=
  match main 30 a input [] with
  | ([], Err e') => match e, e' with
                    | ConsistencyError, ConsistencyError => true
                    | TextXSyntaxError, TextXSyntaxError => true
                    | _, _ => false
                    end
  | _ => false
  end.
Definition accepts {A} (r : result A) : bool := match r with Ok _ => true | _ => false end.

(** tests/integration/generators/binary/01_with_component *)
Example conformance_1 : produces (ArgsBinary ["sample-module.asn"] "sample-module" (Some LittleEndian))
 [("sample-module.asn", "Module-sample-module DEFINITIONS AUTOMATIC TAGS ::= BEGIN

  Sample-packet ::= SEQUENCE {
    sample-packet-with-component With-component-packet (WITH COMPONENTS { -- <IQ
      with-component-packet-number-1 (23),
      with-component-packet-number-2 (42)
    })
  }

  With-component-packet ::= SEQUENCE {
    with-component-packet-number-1 INTEGER(0..4294967295), -- 32 bit
    with-component-packet-number-2 INTEGER(0..18446744073709551615) -- 64 bit
  }

END
")]
 [("sample_packet.bin", string_of_bytes [23; 0; 0; 0; 42; 0; 0; 0; 0; 0; 0; 0]);
("sample_module.h", "#ifndef ASN1_PARSER_SAMPLE_MODULE_H_INCLUDED
#define ASN1_PARSER_SAMPLE_MODULE_H_INCLUDED

/*
This file was autogenerated from ASN.1 model.
*/

#include <stdint.h>

typedef struct
{
  // 32 bit
  uint32_t with_component_packet_number_1;
  // 64 bit
  uint64_t with_component_packet_number_2;
} __attribute__((packed)) With_component_packet;

typedef struct
{
  With_component_packet sample_packet_with_component;
} __attribute__((packed)) Sample_packet;

#endif // ASN1_PARSER_SAMPLE_MODULE_H_INCLUDED
")] = true.
Proof. vm_compute. reflexivity. Qed.

(** tests/integration/generators/binary/02_with_component_with_with_component *)
Example conformance_2 : produces (ArgsBinary ["sample-module.asn"] "sample-module" (Some LittleEndian))
 [("sample-module.asn", "Module-sample-module DEFINITIONS AUTOMATIC TAGS ::= BEGIN

  Sample-packet ::= SEQUENCE {
    sample-packet-with-component With-component-packet (WITH COMPONENTS { -- <IQBHHH
      with-component-packet-number-1 (23),
      with-component-packet-number-2 (42),
      with-component-packet-inner-with-component (WITH COMPONENTS {
        inner-with-component-packet-number-1 (1),
        inner-with-component-packet-number-2 (9),
        inner-with-component-packet-number-3 (10),
        inner-with-component-packet-number-4 (11)
      })
    })
  }

  With-component-packet ::= SEQUENCE {
    with-component-packet-number-1 INTEGER(0..4294967295), -- 32 bit
    with-component-packet-number-2 INTEGER(0..18446744073709551615), -- 64 bit
    with-component-packet-inner-with-component Inner-with-component-packet
  }

  Inner-with-component-packet ::= SEQUENCE {
    inner-with-component-packet-number-1 INTEGER(0..255), -- 8 bit
    inner-with-component-packet-number-2 INTEGER(0..65535), -- 16 bit
    inner-with-component-packet-number-3 INTEGER(0..65535), -- 16 bit
    inner-with-component-packet-number-4 INTEGER(0..65535) -- 16 bit
  }

END
")]
 [("sample_packet.bin", string_of_bytes [23; 0; 0; 0; 42; 0; 0; 0; 0; 0; 0; 0; 1; 9; 0; 10; 0; 11; 0]);
("sample_module.h", "#ifndef ASN1_PARSER_SAMPLE_MODULE_H_INCLUDED
#define ASN1_PARSER_SAMPLE_MODULE_H_INCLUDED

/*
This file was autogenerated from ASN.1 model.
*/

#include <stdint.h>

typedef struct
{
  // 8 bit
  uint8_t inner_with_component_packet_number_1;
  // 16 bit
  uint16_t inner_with_component_packet_number_2;
  // 16 bit
  uint16_t inner_with_component_packet_number_3;
  // 16 bit
  uint16_t inner_with_component_packet_number_4;
} __attribute__((packed)) Inner_with_component_packet;

typedef struct
{
  // 32 bit
  uint32_t with_component_packet_number_1;
  // 64 bit
  uint64_t with_component_packet_number_2;
  Inner_with_component_packet with_component_packet_inner_with_component;
} __attribute__((packed)) With_component_packet;

typedef struct
{
  With_component_packet sample_packet_with_component;
} __attribute__((packed)) Sample_packet;

#endif // ASN1_PARSER_SAMPLE_MODULE_H_INCLUDED
")] = true.
Proof. vm_compute. reflexivity. Qed.

(** tests/integration/generators/binary/03_with_component_with_with_component *)
Example conformance_3 : produces (ArgsBinary ["sample-module.asn"] "sample-module" (Some LittleEndian))
 [("sample-module.asn", "Module-sample-module DEFINITIONS AUTOMATIC TAGS ::= BEGIN

  Sample-packet ::= SEQUENCE {
    sample-packet-with-component With-component-packet (WITH COMPONENTS { -- <IQBH
      with-component-packet-number-1 (23),
      with-component-packet-number-2 (42),
      with-component-packet-inner-with-component (WITH COMPONENTS {
        inner-with-component-packet-number-1 (1),
        inner-with-component-packet-number-2 (9)
      })
    })
  }

  With-component-packet ::= SEQUENCE {
    with-component-packet-number-1 INTEGER(0..4294967295), -- 32 bit
    with-component-packet-number-2 INTEGER(0..18446744073709551615), -- 64 bit
    with-component-packet-inner-with-component Inner-with-component-packet
  }

  Inner-with-component-packet ::= SEQUENCE {
    inner-with-component-packet-number-1 INTEGER(0..255), -- 8 bit
    inner-with-component-packet-number-2 INTEGER(0..65535) -- 16 bit
  }

END
")]
 [("sample_packet.bin", string_of_bytes [23; 0; 0; 0; 42; 0; 0; 0; 0; 0; 0; 0; 1; 9; 0]);
("sample_module.h", "#ifndef ASN1_PARSER_SAMPLE_MODULE_H_INCLUDED
#define ASN1_PARSER_SAMPLE_MODULE_H_INCLUDED

/*
This file was autogenerated from ASN.1 model.
*/

#include <stdint.h>

typedef struct
{
  // 8 bit
  uint8_t inner_with_component_packet_number_1;
  // 16 bit
  uint16_t inner_with_component_packet_number_2;
} __attribute__((packed)) Inner_with_component_packet;

typedef struct
{
  // 32 bit
  uint32_t with_component_packet_number_1;
  // 64 bit
  uint64_t with_component_packet_number_2;
  Inner_with_component_packet with_component_packet_inner_with_component;
} __attribute__((packed)) With_component_packet;

typedef struct
{
  With_component_packet sample_packet_with_component;
} __attribute__((packed)) Sample_packet;

#endif // ASN1_PARSER_SAMPLE_MODULE_H_INCLUDED
")] = true.
Proof. vm_compute. reflexivity. Qed.

(** tests/integration/generators/binary/04_with_component_with_with_component_same_keys_int_float *)
Example conformance_4 : produces (ArgsBinary ["sample-module.asn"] "sample-module" (Some LittleEndian))
 [("sample-module.asn", "Module-sample-module DEFINITIONS AUTOMATIC TAGS ::= BEGIN

  Seq0 ::= SEQUENCE {
    value Seq1 (WITH COMPONENTS {  -- <Bf
      my-value (3),
      inner-with-component (WITH COMPONENTS {
        my-value (3.14)
      })
    })
  }
  
  Seq1 ::= SEQUENCE {
    my-value INTEGER(0..255),
    inner-with-component Seq2
  }

  Seq2 ::= SEQUENCE {
    my-value REAL(0.0 .. 5.2)
  }

END
")]
 [("seq0.bin", string_of_bytes [3; 195; 245; 72; 64]);
("sample_module.h", "#ifndef ASN1_PARSER_SAMPLE_MODULE_H_INCLUDED
#define ASN1_PARSER_SAMPLE_MODULE_H_INCLUDED

/*
This file was autogenerated from ASN.1 model.
*/

#include <stdint.h>

typedef struct
{
  float my_value;
} __attribute__((packed)) Seq2;

typedef struct
{
  uint8_t my_value;
  Seq2 inner_with_component;
} __attribute__((packed)) Seq1;

typedef struct
{
  Seq1 value;
} __attribute__((packed)) Seq0;

#endif // ASN1_PARSER_SAMPLE_MODULE_H_INCLUDED
")] = true.
Proof. vm_compute. reflexivity. Qed.

(** tests/integration/generators/binary/05_with_components_uint_types *)
Example conformance_5 : produces (ArgsBinary ["sample-module.asn"] "sample-module" (Some LittleEndian))
 [("sample-module.asn", "Module-sample-module DEFINITIONS AUTOMATIC TAGS ::= BEGIN

  Uint8-t ::= INTEGER(0..255)
  Uint16-t ::= INTEGER(0..65535)
  Uint32-t ::= INTEGER(0..4294967295)
  Uint64-t ::= INTEGER(0..18446744073709551615)

  Sample-packet ::= SEQUENCE {
    sample-packet-with-component With-component-packet (WITH COMPONENTS { -- <BHIQ
      with-component-packet-number-1 (23),
      with-component-packet-number-2 (300),
      with-component-packet-number-3 (66000),
      with-component-packet-number-4 (4300000000)
    })
  }

  With-component-packet ::= SEQUENCE {
    with-component-packet-number-1 Uint8-t,
    with-component-packet-number-2 Uint16-t,
    with-component-packet-number-3 Uint32-t,
    with-component-packet-number-4 Uint64-t
  }

END
")]
 [("sample_packet.bin", string_of_bytes [23; 44; 1; 208; 1; 1; 0; 0; 203; 76; 0; 1; 0; 0; 0]);
("sample_module.h", "#ifndef ASN1_PARSER_SAMPLE_MODULE_H_INCLUDED
#define ASN1_PARSER_SAMPLE_MODULE_H_INCLUDED

/*
This file was autogenerated from ASN.1 model.
*/

#include <stdint.h>

// NOTE: Uint8-t is embedded directly where it is used. Rationale: Bitfields cannot be typedef'd.

// NOTE: Uint16-t is embedded directly where it is used. Rationale: Bitfields cannot be typedef'd.

// NOTE: Uint32-t is embedded directly where it is used. Rationale: Bitfields cannot be typedef'd.

// NOTE: Uint64-t is embedded directly where it is used. Rationale: Bitfields cannot be typedef'd.

typedef struct
{
  uint8_t with_component_packet_number_1;
  uint16_t with_component_packet_number_2;
  uint32_t with_component_packet_number_3;
  uint64_t with_component_packet_number_4;
} __attribute__((packed)) With_component_packet;

typedef struct
{
  With_component_packet sample_packet_with_component;
} __attribute__((packed)) Sample_packet;

#endif // ASN1_PARSER_SAMPLE_MODULE_H_INCLUDED
")] = true.
Proof. vm_compute. reflexivity. Qed.

(** tests/integration/generators/binary/06_with_components_int_types *)
Example conformance_6 : produces (ArgsBinary ["sample-module.asn"] "sample-module" (Some LittleEndian))
 [("sample-module.asn", "Module-sample-module DEFINITIONS AUTOMATIC TAGS ::= BEGIN

  Int8-t ::= INTEGER(-128..127)
  Int16-t ::= INTEGER(-32768..32767)
  Int32-t ::= INTEGER(-2147483648..2147483647)
  Int64-t ::= INTEGER(-9223372036854775808..9223372036854775807)

  Sample-packet ::= SEQUENCE {
    sample-packet-with-component With-component-packet (WITH COMPONENTS { -- <bhiq
      with-component-packet-number-1 (-127),
      with-component-packet-number-2 (-130),
      with-component-packet-number-3 (-40000),
      with-component-packet-number-4 (-3000000000)
    })
  }

  With-component-packet ::= SEQUENCE {
    with-component-packet-number-1 Int8-t,
    with-component-packet-number-2 Int16-t,
    with-component-packet-number-3 Int32-t,
    with-component-packet-number-4 Int64-t
  }

END
")]
 [("sample_packet.bin", string_of_bytes [129; 126; 255; 192; 99; 255; 255; 0; 162; 47; 77; 255; 255; 255; 255]);
("sample_module.h", "#ifndef ASN1_PARSER_SAMPLE_MODULE_H_INCLUDED
#define ASN1_PARSER_SAMPLE_MODULE_H_INCLUDED

/*
This file was autogenerated from ASN.1 model.
*/

#include <stdint.h>

// NOTE: Int8-t is embedded directly where it is used. Rationale: Bitfields cannot be typedef'd.

// NOTE: Int16-t is embedded directly where it is used. Rationale: Bitfields cannot be typedef'd.

// NOTE: Int32-t is embedded directly where it is used. Rationale: Bitfields cannot be typedef'd.

// NOTE: Int64-t is embedded directly where it is used. Rationale: Bitfields cannot be typedef'd.

typedef struct
{
  int8_t with_component_packet_number_1;
  int16_t with_component_packet_number_2;
  int32_t with_component_packet_number_3;
  int64_t with_component_packet_number_4;
} __attribute__((packed)) With_component_packet;

typedef struct
{
  With_component_packet sample_packet_with_component;
} __attribute__((packed)) Sample_packet;

#endif // ASN1_PARSER_SAMPLE_MODULE_H_INCLUDED
")] = true.
Proof. vm_compute. reflexivity. Qed.

(** tests/integration/generators/binary/07_with_components_real_types *)
Example conformance_7 : produces (ArgsBinary ["sample-module.asn"] "sample-module" (Some LittleEndian))
 [("sample-module.asn", "Module-sample-module DEFINITIONS AUTOMATIC TAGS ::= BEGIN

  Float ::= REAL(-340000000000000000000000000000000000000.00 .. 340000000000000000000000000000000000000.00)
  Double ::= REAL(-179769313486231570000000000000000000000000000000000000000000000000000000000000000000000000000000000000000000000000000000000000000000000000000000000000000000000000000000000000000000000000000000000000000000000000000000000000000000000000000000000000000000000000000000000000000000000000000000000000000000000000000.0 .. 179769313486231570000000000000000000000000000000000000000000000000000000000000000000000000000000000000000000000000000000000000000000000000000000000000000000000000000000000000000000000000000000000000000000000000000000000000000000000000000000000000000000000000000000000000000000000000000000000000000000000000000.0)

  Sample-packet ::= SEQUENCE {
    sample-packet-with-component With-component-packet (WITH COMPONENTS { -- <fd
      with-component-packet-number-1 (170141183460469231731687303715884105728.0), -- 2^127
      with-component-packet-number-2 (390000000000000000000000000000000000000.0)
    })
  }

  With-component-packet ::= SEQUENCE {
    with-component-packet-number-1 Float,
    with-component-packet-number-2 Double
  }

END
")]
 [("sample_packet.bin", string_of_bytes [0; 0; 0; 127; 13; 68; 9; 73; 116; 86; 242; 71]);
("sample_module.h", "#ifndef ASN1_PARSER_SAMPLE_MODULE_H_INCLUDED
#define ASN1_PARSER_SAMPLE_MODULE_H_INCLUDED

/*
This file was autogenerated from ASN.1 model.
*/


typedef struct
{
  float with_component_packet_number_1;
  double with_component_packet_number_2;
} __attribute__((packed)) With_component_packet;

typedef struct
{
  With_component_packet sample_packet_with_component;
} __attribute__((packed)) Sample_packet;

#endif // ASN1_PARSER_SAMPLE_MODULE_H_INCLUDED
")] = true.
Proof. vm_compute. reflexivity. Qed.

(** tests/integration/generators/binary/11_with_component_big_endian *)
Example conformance_8 : produces (ArgsBinary ["sample-module.asn"] "sample-module" (Some BigEndian))
 [("sample-module.asn", "Module-sample-module DEFINITIONS AUTOMATIC TAGS ::= BEGIN

  Sample-packet ::= SEQUENCE {
    sample-packet-with-component With-component-packet (WITH COMPONENTS { -- >IQ
      with-component-packet-number-1 (23),
      with-component-packet-number-2 (42)
    })
  }

  With-component-packet ::= SEQUENCE {
    with-component-packet-number-1 INTEGER(0..4294967295), -- 32 bit
    with-component-packet-number-2 INTEGER(0..18446744073709551615) -- 64 bit
  }

END
")]
 [("sample_packet.bin", string_of_bytes [0; 0; 0; 23; 0; 0; 0; 0; 0; 0; 0; 42]);
("sample_module.h", "#ifndef ASN1_PARSER_SAMPLE_MODULE_H_INCLUDED
#define ASN1_PARSER_SAMPLE_MODULE_H_INCLUDED

/*
This file was autogenerated from ASN.1 model.
*/

#include <stdint.h>

typedef struct
{
  // 32 bit
  uint32_t with_component_packet_number_1;
  // 64 bit
  uint64_t with_component_packet_number_2;
} __attribute__((packed)) With_component_packet;

typedef struct
{
  With_component_packet sample_packet_with_component;
} __attribute__((packed)) Sample_packet;

#endif // ASN1_PARSER_SAMPLE_MODULE_H_INCLUDED
")] = true.
Proof. vm_compute. reflexivity. Qed.

(** tests/integration/generators/binary/12_with_component_with_with_component_big_endian/02_with_component_with_with_component *)
Example conformance_9 : produces (ArgsBinary ["sample-module.asn"] "sample-module" (Some BigEndian))
 [("sample-module.asn", "Module-sample-module DEFINITIONS AUTOMATIC TAGS ::= BEGIN

  Sample-packet ::= SEQUENCE {
    sample-packet-with-component With-component-packet (WITH COMPONENTS { -- >IQBHHH
      with-component-packet-number-1 (23),
      with-component-packet-number-2 (42),
      with-component-packet-inner-with-component (WITH COMPONENTS {
        inner-with-component-packet-number-1 (1),
        inner-with-component-packet-number-2 (9),
        inner-with-component-packet-number-3 (10),
        inner-with-component-packet-number-4 (11)
      })
    })
  }

  With-component-packet ::= SEQUENCE {
    with-component-packet-number-1 INTEGER(0..4294967295), -- 32 bit
    with-component-packet-number-2 INTEGER(0..18446744073709551615), -- 64 bit
    with-component-packet-inner-with-component Inner-with-component-packet
  }

  Inner-with-component-packet ::= SEQUENCE {
    inner-with-component-packet-number-1 INTEGER(0..255), -- 8 bit
    inner-with-component-packet-number-2 INTEGER(0..65535), -- 16 bit
    inner-with-component-packet-number-3 INTEGER(0..65535), -- 16 bit
    inner-with-component-packet-number-4 INTEGER(0..65535) -- 16 bit
  }

END
")]
 [("sample_packet.bin", string_of_bytes [0; 0; 0; 23; 0; 0; 0; 0; 0; 0; 0; 42; 1; 0; 9; 0; 10; 0; 11]);
("sample_module.h", "#ifndef ASN1_PARSER_SAMPLE_MODULE_H_INCLUDED
#define ASN1_PARSER_SAMPLE_MODULE_H_INCLUDED

/*
This file was autogenerated from ASN.1 model.
*/

#include <stdint.h>

typedef struct
{
  // 8 bit
  uint8_t inner_with_component_packet_number_1;
  // 16 bit
  uint16_t inner_with_component_packet_number_2;
  // 16 bit
  uint16_t inner_with_component_packet_number_3;
  // 16 bit
  uint16_t inner_with_component_packet_number_4;
} __attribute__((packed)) Inner_with_component_packet;

typedef struct
{
  // 32 bit
  uint32_t with_component_packet_number_1;
  // 64 bit
  uint64_t with_component_packet_number_2;
  Inner_with_component_packet with_component_packet_inner_with_component;
} __attribute__((packed)) With_component_packet;

typedef struct
{
  With_component_packet sample_packet_with_component;
} __attribute__((packed)) Sample_packet;

#endif // ASN1_PARSER_SAMPLE_MODULE_H_INCLUDED
")] = true.
Proof. vm_compute. reflexivity. Qed.

(** tests/integration/generators/binary/13_with_component_with_with_component_big_endian *)
Example conformance_10 : produces (ArgsBinary ["sample-module.asn"] "sample-module" (Some BigEndian))
 [("sample-module.asn", "Module-sample-module DEFINITIONS AUTOMATIC TAGS ::= BEGIN

  Sample-packet ::= SEQUENCE {
    sample-packet-with-component With-component-packet (WITH COMPONENTS { -- >IQBH
      with-component-packet-number-1 (23),
      with-component-packet-number-2 (42),
      with-component-packet-inner-with-component (WITH COMPONENTS {
        inner-with-component-packet-number-1 (1),
        inner-with-component-packet-number-2 (9)
      })
    })
  }

  With-component-packet ::= SEQUENCE {
    with-component-packet-number-1 INTEGER(0..4294967295), -- 32 bit
    with-component-packet-number-2 INTEGER(0..18446744073709551615), -- 64 bit
    with-component-packet-inner-with-component Inner-with-component-packet
  }

  Inner-with-component-packet ::= SEQUENCE {
    inner-with-component-packet-number-1 INTEGER(0..255), -- 8 bit
    inner-with-component-packet-number-2 INTEGER(0..65535) -- 16 bit
  }

END
")]
 [("sample_packet.bin", string_of_bytes [0; 0; 0; 23; 0; 0; 0; 0; 0; 0; 0; 42; 1; 0; 9]);
("sample_module.h", "#ifndef ASN1_PARSER_SAMPLE_MODULE_H_INCLUDED
#define ASN1_PARSER_SAMPLE_MODULE_H_INCLUDED

/*
This file was autogenerated from ASN.1 model.
*/

#include <stdint.h>

typedef struct
{
  // 8 bit
  uint8_t inner_with_component_packet_number_1;
  // 16 bit
  uint16_t inner_with_component_packet_number_2;
} __attribute__((packed)) Inner_with_component_packet;

typedef struct
{
  // 32 bit
  uint32_t with_component_packet_number_1;
  // 64 bit
  uint64_t with_component_packet_number_2;
  Inner_with_component_packet with_component_packet_inner_with_component;
} __attribute__((packed)) With_component_packet;

typedef struct
{
  With_component_packet sample_packet_with_component;
} __attribute__((packed)) Sample_packet;

#endif // ASN1_PARSER_SAMPLE_MODULE_H_INCLUDED
")] = true.
Proof. vm_compute. reflexivity. Qed.

(** tests/integration/generators/binary/14_with_component_with_with_component_same_keys_int_float_big_endian *)
Example conformance_11 : produces (ArgsBinary ["sample-module.asn"] "sample-module" (Some BigEndian))
 [("sample-module.asn", "Module-sample-module DEFINITIONS AUTOMATIC TAGS ::= BEGIN

  Seq0 ::= SEQUENCE {
    value Seq1 (WITH COMPONENTS {  -- >Bf
      my-value (3),
      inner-with-component (WITH COMPONENTS {
        my-value (3.14)
      })
    })
  }
  
  Seq1 ::= SEQUENCE {
    my-value INTEGER(0..255),
    inner-with-component Seq2
  }

  Seq2 ::= SEQUENCE {
    my-value REAL(0.0 .. 5.2)
  }

END
")]
 [("seq0.bin", string_of_bytes [3; 64; 72; 245; 195]);
("sample_module.h", "#ifndef ASN1_PARSER_SAMPLE_MODULE_H_INCLUDED
#define ASN1_PARSER_SAMPLE_MODULE_H_INCLUDED

/*
This file was autogenerated from ASN.1 model.
*/

#include <stdint.h>

typedef struct
{
  float my_value;
} __attribute__((packed)) Seq2;

typedef struct
{
  uint8_t my_value;
  Seq2 inner_with_component;
} __attribute__((packed)) Seq1;

typedef struct
{
  Seq1 value;
} __attribute__((packed)) Seq0;

#endif // ASN1_PARSER_SAMPLE_MODULE_H_INCLUDED
")] = true.
Proof. vm_compute. reflexivity. Qed.

(** tests/integration/generators/c/01_struct_with_one_integer_number *)
Example conformance_12 : produces (ArgsC ["sample-module.asn"] "sample-module")
 [("sample-module.asn", "Module-sample-module DEFINITIONS AUTOMATIC TAGS ::= BEGIN

  Sample-packet ::= SEQUENCE {
    number INTEGER(0..255)
  }

END
")]
 [("sample_module.h", "#ifndef ASN1_PARSER_SAMPLE_MODULE_H_INCLUDED
#define ASN1_PARSER_SAMPLE_MODULE_H_INCLUDED

/*
This file was autogenerated from ASN.1 model.
*/

#include <stdint.h>

typedef struct
{
  uint8_t number;
} __attribute__((packed)) Sample_packet;

#endif // ASN1_PARSER_SAMPLE_MODULE_H_INCLUDED
")] = true.
Proof. vm_compute. reflexivity. Qed.

(** tests/integration/generators/c/23_with_components *)
Example conformance_13 : produces (ArgsC ["sample-module.asn"] "sample-module")
 [("sample-module.asn", "Module-sample-module DEFINITIONS AUTOMATIC TAGS ::= BEGIN

  Sample-packet ::= SEQUENCE {
    sample-packet-uint-number INTEGER(0..255),
    sample-packet-with-component With-component-packet (WITH COMPONENTS {
      with-component-packet-number-1 (23),
      with-component-packet-number-2 (42),
      with-component-packet-inner-with-component (WITH COMPONENTS {
        inner-with-component-packet-number-1 (1),
        inner-with-component-packet-number-2 (9)
      }),
      with-component-packet-bool (TRUE)
    })
  }

  With-component-packet ::= SEQUENCE {
    with-component-packet-number-1 INTEGER(0..4294967295),
    with-component-packet-number-2 INTEGER(0..18446744073709551615),
    with-component-packet-inner-with-component Inner-with-component-packet,
    with-component-packet-bool BOOLEAN
  }

  Inner-with-component-packet ::= SEQUENCE {
    inner-with-component-packet-number-1 INTEGER(0..255),
    inner-with-component-packet-number-2 INTEGER(0..65535)
  }

END
")]
 [("sample_module.c", "/*
This file was autogenerated from ASN.1 model.
*/

#include ""sample_module.h""

Sample_packet sample_packet = {
  .sample_packet_with_component = {
    .with_component_packet_number_1 = 23,
    .with_component_packet_number_2 = 42,
    .with_component_packet_inner_with_component = {
      .inner_with_component_packet_number_1 = 1,
      .inner_with_component_packet_number_2 = 9,
    },
    .with_component_packet_bool = 1,
  },
};
");
("sample_module.h", "#ifndef ASN1_PARSER_SAMPLE_MODULE_H_INCLUDED
#define ASN1_PARSER_SAMPLE_MODULE_H_INCLUDED

/*
This file was autogenerated from ASN.1 model.
*/

#include <stdint.h>

typedef struct
{
  uint8_t inner_with_component_packet_number_1;
  uint16_t inner_with_component_packet_number_2;
} __attribute__((packed)) Inner_with_component_packet;

typedef struct
{
  uint32_t with_component_packet_number_1;
  uint64_t with_component_packet_number_2;
  Inner_with_component_packet with_component_packet_inner_with_component;
  uint8_t with_component_packet_bool : 1;
} __attribute__((packed)) With_component_packet;

typedef struct
{
  uint8_t sample_packet_uint_number;
  With_component_packet sample_packet_with_component;
} __attribute__((packed)) Sample_packet;

Sample_packet sample_packet;

#endif // ASN1_PARSER_SAMPLE_MODULE_H_INCLUDED
")] = true.
Proof. vm_compute. reflexivity. Qed.

(** tests/integration/generators/cfs/01_struct_with_one_integer_number *)
Example conformance_14 : produces (ArgsCfs ["sample.asn"] "sample-module")
 [("sample.asn", "Module-sample-module DEFINITIONS AUTOMATIC TAGS ::= BEGIN

  Sample-packet ::= SEQUENCE {
    number INTEGER(0..7)
  }

END
")]
 [("sample_module_msg.h", "#ifndef ASN1_PARSER_SAMPLE_MODULE_MSG_H_INCLUDED
#define ASN1_PARSER_SAMPLE_MODULE_MSG_H_INCLUDED

/*
This file was autogenerated from ASN.1 model.
*/

#include <stdint.h>

typedef struct
{
  uint8_t number : 3;
} __attribute__((packed)) Sample_packet;

#endif // ASN1_PARSER_SAMPLE_MODULE_MSG_H_INCLUDED
")] = true.
Proof. vm_compute. reflexivity. Qed.

(** tests/integration/generators/cfs/02_struct_with_one_bool *)
Example conformance_15 : produces (ArgsCfs ["sample.asn"] "sample-module")
 [("sample.asn", "Module-sample-module DEFINITIONS AUTOMATIC TAGS ::= BEGIN

  Sample-packet ::= SEQUENCE {
    variable-bool BOOLEAN
  }

END
")]
 [("sample_module_msg.h", "#ifndef ASN1_PARSER_SAMPLE_MODULE_MSG_H_INCLUDED
#define ASN1_PARSER_SAMPLE_MODULE_MSG_H_INCLUDED

/*
This file was autogenerated from ASN.1 model.
*/

#include <stdint.h>

typedef struct
{
  uint8_t variable_bool : 1;
} __attribute__((packed)) Sample_packet;

#endif // ASN1_PARSER_SAMPLE_MODULE_MSG_H_INCLUDED
")] = true.
Proof. vm_compute. reflexivity. Qed.

(** tests/integration/generators/cfs/03_struct_with_one_real_number *)
Example conformance_16 : produces (ArgsCfs ["sample.asn"] "sample-module")
 [("sample.asn", "Module-sample-module DEFINITIONS AUTOMATIC TAGS ::= BEGIN

  Sample-packet ::= SEQUENCE {
    number REAL(0.0 .. 1000.3)
  }

END
")]
 [("sample_module_msg.h", "#ifndef ASN1_PARSER_SAMPLE_MODULE_MSG_H_INCLUDED
#define ASN1_PARSER_SAMPLE_MODULE_MSG_H_INCLUDED

/*
This file was autogenerated from ASN.1 model.
*/


typedef struct
{
  float number;
} __attribute__((packed)) Sample_packet;

#endif // ASN1_PARSER_SAMPLE_MODULE_MSG_H_INCLUDED
")] = true.
Proof. vm_compute. reflexivity. Qed.

(** tests/integration/generators/cfs/04_import_one_definition_from_another_module *)
Example conformance_17 : produces (ArgsCfs ["imported_module.asn"; "main_module.asn"] "main-module,imported-module")
 [("imported_module.asn", "Module-imported-module DEFINITIONS AUTOMATIC TAGS ::= BEGIN

  Imported-packet ::= SEQUENCE {
    imported-definition INTEGER(0..7)
  }

END");
("main_module.asn", "Module-main-module DEFINITIONS AUTOMATIC TAGS ::= BEGIN

  IMPORTS Imported-packet FROM Module-imported-module;

  Packet ::= SEQUENCE {
    import Imported-packet
    (WITH COMPONENTS {
      imported-definition (WITH COMPONENTS {
          variable (7)
        })
    })
  }

END")]
 [("main_module_msg.h", "#ifndef ASN1_PARSER_MAIN_MODULE_MSG_H_INCLUDED
#define ASN1_PARSER_MAIN_MODULE_MSG_H_INCLUDED

/*
This file was autogenerated from ASN.1 model.
*/

#include ""imported_module_msg.h""

typedef struct
{
  Imported_packet import;
} __attribute__((packed)) Packet;

#endif // ASN1_PARSER_MAIN_MODULE_MSG_H_INCLUDED
");
("main_module_msgids.h", "#ifndef ASN1_PARSER_MAIN_MODULE_MSGIDS_H_INCLUDED
#define ASN1_PARSER_MAIN_MODULE_MSGIDS_H_INCLUDED

/*
This file was autogenerated from ASN.1 model.
*/

#define PACKET_VARIABLE (7)


#endif // ASN1_PARSER_MAIN_MODULE_MSGIDS_H_INCLUDED
");
("imported_module_msg.h", "#ifndef ASN1_PARSER_IMPORTED_MODULE_MSG_H_INCLUDED
#define ASN1_PARSER_IMPORTED_MODULE_MSG_H_INCLUDED

/*
This file was autogenerated from ASN.1 model.
*/

#include <stdint.h>

typedef struct
{
  uint8_t imported_definition : 3;
} __attribute__((packed)) Imported_packet;

#endif // ASN1_PARSER_IMPORTED_MODULE_MSG_H_INCLUDED
")] = true.
Proof. vm_compute. reflexivity. Qed.

(** tests/integration/generators/cfs/05_simple_defs_from_same_module_that_are_bitfields_are_inlined *)
Example conformance_18 : produces (ArgsCfs ["main_module.asn"] "main-module")
 [("main_module.asn", "Module-main-module DEFINITIONS AUTOMATIC TAGS ::= BEGIN

  Number ::= INTEGER(0..7)

  Packet-main-packet ::= SEQUENCE {
    number Number
  }

END
")]
 [("main_module_msg.h", "#ifndef ASN1_PARSER_MAIN_MODULE_MSG_H_INCLUDED
#define ASN1_PARSER_MAIN_MODULE_MSG_H_INCLUDED

/*
This file was autogenerated from ASN.1 model.
*/

#include <stdint.h>
// NOTE: The simple type 'Number' has been generated to a C bitfield type and is used directly in 'main-module'

typedef struct
{
  uint8_t number : 3;
} __attribute__((packed)) Packet_main_packet;

#endif // ASN1_PARSER_MAIN_MODULE_MSG_H_INCLUDED
")] = true.
Proof. vm_compute. reflexivity. Qed.

(** tests/integration/generators/cfs/06_simple_defs_from_imported_modules_that_are_bitfields_are_inlined *)
Example conformance_19 : produces (ArgsCfs ["main_module.asn"; "imported_module.asn"] "main-module,imported-module")
 [("main_module.asn", "Module-main-module DEFINITIONS AUTOMATIC TAGS ::= BEGIN

  IMPORTS Number FROM Module-imported-module;

  Packet-main-packet ::= SEQUENCE {
    number Number
  }

END
");
("imported_module.asn", "Module-imported-module DEFINITIONS AUTOMATIC TAGS ::= BEGIN

  Number ::= INTEGER(0..7)

END
")]
 [("main_module_msg.h", "#ifndef ASN1_PARSER_MAIN_MODULE_MSG_H_INCLUDED
#define ASN1_PARSER_MAIN_MODULE_MSG_H_INCLUDED

/*
This file was autogenerated from ASN.1 model.
*/

#include <stdint.h>
#include ""imported_module_msg.h""

typedef struct
{
  uint8_t number : 3;
} __attribute__((packed)) Packet_main_packet;

#endif // ASN1_PARSER_MAIN_MODULE_MSG_H_INCLUDED
");
("imported_module_msg.h", "#ifndef ASN1_PARSER_IMPORTED_MODULE_MSG_H_INCLUDED
#define ASN1_PARSER_IMPORTED_MODULE_MSG_H_INCLUDED

/*
This file was autogenerated from ASN.1 model.
*/

// NOTE: The simple type 'Number' has been generated to a C bitfield type and is used directly in 'main-module'

#endif // ASN1_PARSER_IMPORTED_MODULE_MSG_H_INCLUDED
")] = true.
Proof. vm_compute. reflexivity. Qed.

(** tests/integration/generators/cfs/07_all_kinds_simple_defs *)
Example conformance_20 : produces (ArgsCfs ["main_module.asn"] "main-module")
 [("main_module.asn", "Module-main-module DEFINITIONS AUTOMATIC TAGS ::= BEGIN

  Percent ::= REAL(0.0 .. 100.00)
  Float ::= REAL(-340000000000000000000000000000000000000.00 .. 340000000000000000000000000000000000000.00)
  Double ::= REAL(-179769313486231570000000000000000000000000000000000000000000000000000000000000000000000000000000000000000000000000000000000000000000000000000000000000000000000000000000000000000000000000000000000000000000000000000000000000000000000000000000000000000000000000000000000000000000000000000000000000000000000000000.0 .. 179769313486231570000000000000000000000000000000000000000000000000000000000000000000000000000000000000000000000000000000000000000000000000000000000000000000000000000000000000000000000000000000000000000000000000000000000000000000000000000000000000000000000000000000000000000000000000000000000000000000000000000.0)

  Uint3 ::= INTEGER(0..7)
  Uint16-t ::= INTEGER(0..65535)

  Sample-packet ::= SEQUENCE {
    number-0-100 Percent,
    number-float Float,
    number-double Double,
    number-3-bit Uint3,
    number-16-bit Uint16-t
  }

END")]
 [("main_module_msg.h", "#ifndef ASN1_PARSER_MAIN_MODULE_MSG_H_INCLUDED
#define ASN1_PARSER_MAIN_MODULE_MSG_H_INCLUDED

/*
This file was autogenerated from ASN.1 model.
*/

#include <stdint.h>
// NOTE: The simple type 'Percent' has been generated to a C builtin type and is used directly in 'main-module'
// NOTE: The simple type 'Float' has been generated to a C builtin type and is used directly in 'main-module'
// NOTE: The simple type 'Double' has been generated to a C builtin type and is used directly in 'main-module'
// NOTE: The simple type 'Uint3' has been generated to a C bitfield type and is used directly in 'main-module'
// NOTE: The simple type 'Uint16-t' has been generated to a C builtin type and is used directly in 'main-module'

typedef struct
{
  float number_0_100;
  float number_float;
  double number_double;
  uint8_t number_3_bit : 3;
  uint16_t number_16_bit;
} __attribute__((packed)) Sample_packet;

#endif // ASN1_PARSER_MAIN_MODULE_MSG_H_INCLUDED
")] = true.
Proof. vm_compute. reflexivity. Qed.

(** tests/integration/generators/cfs/08_all_kinds_simple_defs_imported *)
Example conformance_21 : produces (ArgsCfs ["main_module.asn"; "imported_module.asn"] "main-module,imported-module")
 [("main_module.asn", "Module-main-module DEFINITIONS AUTOMATIC TAGS ::= BEGIN

  IMPORTS Percent, Float, Double, Uint3, Uint16-t FROM Module-imported-module;

  Sample-packet ::= SEQUENCE {
    number-0-100 Percent,
    number-float Float,
    number-double Double,
    number-3-bit Uint3,
    number-16-bit Uint16-t
  }

END");
("imported_module.asn", "Module-imported-module DEFINITIONS AUTOMATIC TAGS ::= BEGIN

  Percent ::= REAL(0.0 .. 100.00)
  Float ::= REAL(-340000000000000000000000000000000000000.00 .. 340000000000000000000000000000000000000.00)
  Double ::= REAL(-179769313486231570000000000000000000000000000000000000000000000000000000000000000000000000000000000000000000000000000000000000000000000000000000000000000000000000000000000000000000000000000000000000000000000000000000000000000000000000000000000000000000000000000000000000000000000000000000000000000000000000000.0 .. 179769313486231570000000000000000000000000000000000000000000000000000000000000000000000000000000000000000000000000000000000000000000000000000000000000000000000000000000000000000000000000000000000000000000000000000000000000000000000000000000000000000000000000000000000000000000000000000000000000000000000000000.0)

  Uint3 ::= INTEGER(0..7)
  Uint16-t ::= INTEGER(0..65535)

END")]
 [("main_module_msg.h", "#ifndef ASN1_PARSER_MAIN_MODULE_MSG_H_INCLUDED
#define ASN1_PARSER_MAIN_MODULE_MSG_H_INCLUDED

/*
This file was autogenerated from ASN.1 model.
*/

#include <stdint.h>
#include ""imported_module_msg.h""

typedef struct
{
  float number_0_100;
  float number_float;
  double number_double;
  uint8_t number_3_bit : 3;
  uint16_t number_16_bit;
} __attribute__((packed)) Sample_packet;

#endif // ASN1_PARSER_MAIN_MODULE_MSG_H_INCLUDED
");
("imported_module_msg.h", "#ifndef ASN1_PARSER_IMPORTED_MODULE_MSG_H_INCLUDED
#define ASN1_PARSER_IMPORTED_MODULE_MSG_H_INCLUDED

/*
This file was autogenerated from ASN.1 model.
*/

// NOTE: The simple type 'Percent' has been generated to a C builtin type and is used directly in 'main-module'
// NOTE: The simple type 'Float' has been generated to a C builtin type and is used directly in 'main-module'
// NOTE: The simple type 'Double' has been generated to a C builtin type and is used directly in 'main-module'
// NOTE: The simple type 'Uint3' has been generated to a C bitfield type and is used directly in 'main-module'
// NOTE: The simple type 'Uint16-t' has been generated to a C builtin type and is used directly in 'main-module'

#endif // ASN1_PARSER_IMPORTED_MODULE_MSG_H_INCLUDED
")] = true.
Proof. vm_compute. reflexivity. Qed.

(** tests/integration/generators/cfs/09_definition_and_generation_of_double *)
Example conformance_22 : produces (ArgsCfs ["module.asn"] "module")
 [("module.asn", "Module-module DEFINITIONS AUTOMATIC TAGS ::= BEGIN

  Double ::= REAL(-179769313486231570000000000000000000000000000000000000000000000000000000000000000000000000000000000000000000000000000000000000000000000000000000000000000000000000000000000000000000000000000000000000000000000000000000000000000000000000000000000000000000000000000000000000000000000000000000000000000000000000000.0 .. 179769313486231570000000000000000000000000000000000000000000000000000000000000000000000000000000000000000000000000000000000000000000000000000000000000000000000000000000000000000000000000000000000000000000000000000000000000000000000000000000000000000000000000000000000000000000000000000000000000000000000000000.0)

  Packet ::= SEQUENCE {
    double-number Double
  }

END
")]
 [("module_msg.h", "#ifndef ASN1_PARSER_MODULE_MSG_H_INCLUDED
#define ASN1_PARSER_MODULE_MSG_H_INCLUDED

/*
This file was autogenerated from ASN.1 model.
*/

// NOTE: The simple type 'Double' has been generated to a C builtin type and is used directly in 'module'

typedef struct
{
  double double_number;
} __attribute__((packed)) Packet;

#endif // ASN1_PARSER_MODULE_MSG_H_INCLUDED
")] = true.
Proof. vm_compute. reflexivity. Qed.

(** tests/integration/generators/cfs/10_sort_four_modules_by_dependency *)
Example conformance_23 : produces (ArgsCfs ["module_a.asn"; "module_b.asn"; "module_c.asn"; "module_d.asn"] "module-d,module-b,module-c,module-a")
 [("module_a.asn", "Module-module-a DEFINITIONS AUTOMATIC TAGS ::= BEGIN

  IMPORTS Module-b-type FROM Module-module-b;

  Module-a-type ::= SEQUENCE {
    module-a-variable Module-b-type
  }

END");
("module_b.asn", "Module-module-b DEFINITIONS AUTOMATIC TAGS ::= BEGIN

  IMPORTS Module-c-type FROM Module-module-c;

  Module-b-type ::= SEQUENCE {
    module-b-variable Module-c-type
  }

END");
("module_c.asn", "Module-module-c DEFINITIONS AUTOMATIC TAGS ::= BEGIN

  IMPORTS Module-d-type FROM Module-module-d;

  Module-c-type ::= SEQUENCE {
    module-c-variable Module-d-type
  }

END");
("module_d.asn", "Module-module-d DEFINITIONS AUTOMATIC TAGS ::= BEGIN

  Module-d-type ::= INTEGER(0..65535)

END")]
 [("module_a_msg.h", "#ifndef ASN1_PARSER_MODULE_A_MSG_H_INCLUDED
#define ASN1_PARSER_MODULE_A_MSG_H_INCLUDED

/*
This file was autogenerated from ASN.1 model.
*/

#include ""module_b_msg.h""

typedef struct
{
  Module_b_type module_a_variable;
} __attribute__((packed)) Module_a_type;

#endif // ASN1_PARSER_MODULE_A_MSG_H_INCLUDED
");
("module_b_msg.h", "#ifndef ASN1_PARSER_MODULE_B_MSG_H_INCLUDED
#define ASN1_PARSER_MODULE_B_MSG_H_INCLUDED

/*
This file was autogenerated from ASN.1 model.
*/

#include ""module_c_msg.h""

typedef struct
{
  Module_c_type module_b_variable;
} __attribute__((packed)) Module_b_type;

#endif // ASN1_PARSER_MODULE_B_MSG_H_INCLUDED
");
("module_c_msg.h", "#ifndef ASN1_PARSER_MODULE_C_MSG_H_INCLUDED
#define ASN1_PARSER_MODULE_C_MSG_H_INCLUDED

/*
This file was autogenerated from ASN.1 model.
*/

#include <stdint.h>
#include ""module_d_msg.h""

typedef struct
{
  uint16_t module_c_variable;
} __attribute__((packed)) Module_c_type;

#endif // ASN1_PARSER_MODULE_C_MSG_H_INCLUDED
");
("module_d_msg.h", "#ifndef ASN1_PARSER_MODULE_D_MSG_H_INCLUDED
#define ASN1_PARSER_MODULE_D_MSG_H_INCLUDED

/*
This file was autogenerated from ASN.1 model.
*/

// NOTE: The simple type 'Module-d-type' has been generated to a C builtin type and is used directly in 'module-c'

#endif // ASN1_PARSER_MODULE_D_MSG_H_INCLUDED
")] = true.
Proof. vm_compute. reflexivity. Qed.

(** tests/integration/generators/cfs/10_sort_four_modules_by_dependency, run 2 *)
Example conformance_24 : produces (ArgsCfs ["module_a.asn"; "module_b.asn"; "module_c.asn"; "module_d.asn"] "module-a,module-b,module-c,module-d")
 [("module_a.asn", "Module-module-a DEFINITIONS AUTOMATIC TAGS ::= BEGIN

  IMPORTS Module-b-type FROM Module-module-b;

  Module-a-type ::= SEQUENCE {
    module-a-variable Module-b-type
  }

END");
("module_b.asn", "Module-module-b DEFINITIONS AUTOMATIC TAGS ::= BEGIN

  IMPORTS Module-c-type FROM Module-module-c;

  Module-b-type ::= SEQUENCE {
    module-b-variable Module-c-type
  }

END");
("module_c.asn", "Module-module-c DEFINITIONS AUTOMATIC TAGS ::= BEGIN

  IMPORTS Module-d-type FROM Module-module-d;

  Module-c-type ::= SEQUENCE {
    module-c-variable Module-d-type
  }

END");
("module_d.asn", "Module-module-d DEFINITIONS AUTOMATIC TAGS ::= BEGIN

  Module-d-type ::= INTEGER(0..65535)

END")]
 [("module_a_msg.h", "#ifndef ASN1_PARSER_MODULE_A_MSG_H_INCLUDED
#define ASN1_PARSER_MODULE_A_MSG_H_INCLUDED

/*
This file was autogenerated from ASN.1 model.
*/

#include ""module_b_msg.h""

typedef struct
{
  Module_b_type module_a_variable;
} __attribute__((packed)) Module_a_type;

#endif // ASN1_PARSER_MODULE_A_MSG_H_INCLUDED
");
("module_b_msg.h", "#ifndef ASN1_PARSER_MODULE_B_MSG_H_INCLUDED
#define ASN1_PARSER_MODULE_B_MSG_H_INCLUDED

/*
This file was autogenerated from ASN.1 model.
*/

#include ""module_c_msg.h""

typedef struct
{
  Module_c_type module_b_variable;
} __attribute__((packed)) Module_b_type;

#endif // ASN1_PARSER_MODULE_B_MSG_H_INCLUDED
");
("module_c_msg.h", "#ifndef ASN1_PARSER_MODULE_C_MSG_H_INCLUDED
#define ASN1_PARSER_MODULE_C_MSG_H_INCLUDED

/*
This file was autogenerated from ASN.1 model.
*/

#include <stdint.h>
#include ""module_d_msg.h""

typedef struct
{
  uint16_t module_c_variable;
} __attribute__((packed)) Module_c_type;

#endif // ASN1_PARSER_MODULE_C_MSG_H_INCLUDED
");
("module_d_msg.h", "#ifndef ASN1_PARSER_MODULE_D_MSG_H_INCLUDED
#define ASN1_PARSER_MODULE_D_MSG_H_INCLUDED

/*
This file was autogenerated from ASN.1 model.
*/

// NOTE: The simple type 'Module-d-type' has been generated to a C builtin type and is used directly in 'module-c'

#endif // ASN1_PARSER_MODULE_D_MSG_H_INCLUDED
")] = true.
Proof. vm_compute. reflexivity. Qed.

(** tests/integration/generators/cfs/11_two_identifiers_are_generated_as_two_header_defines *)
Example conformance_25 : produces (ArgsCfs ["ccsds-headers.asn"; "cfe-headers.asn"; "module1.asn"; "module2.asn"; "simple-types.asn"] "module1,module2,simple-types,cfe-headers,ccsds-headers")
 [("ccsds-headers.asn", "Module-ccsds-headers DEFINITIONS AUTOMATIC TAGS ::= BEGIN -- CCSDS TM/TC headers

  IMPORTS Uint3, Uint11, Uint14, Uint16-t, Uint32-t FROM Module-simple-types;

  Ccsds-primary-header ::= SEQUENCE { -- primary header
    packet-identification Packet-identification,
    packet-sequence-control Packet-sequence-control,
    packet-data-length Uint16-t -- length of the packet
  }

  Packet-identification ::= SEQUENCE {
    packet-version-number Uint3, -- moved from Ccsds-primary-header to here to avoid C compiler padding issues
    packet-type-is-cmd BOOLEAN,
    sec-hdr-flag-is-present BOOLEAN,
    application-process-identifier Uint11
  }

  Packet-sequence-control ::= SEQUENCE {
    sequence-flags Sequence-flag,
    packet-sequence-count Uint14
  }

  Sequence-flag ::= ENUMERATED {
    continuation-packet-in-sequence (0),
    first-packet-in-sequence (1),
    last-packet-in-sequence (2),
    complete-packet(3)
  }

  Ccsds-extended-header ::= SEQUENCE {
    subsystem Uint16-t,
    system-id Uint16-t
  }

END
");
("cfe-headers.asn", "Module-cfe-headers DEFINITIONS AUTOMATIC TAGS ::= BEGIN -- cFE TM/TC headers

  IMPORTS Uint8-t, Uint16-t, Uint32-t FROM Module-simple-types
          Ccsds-primary-header FROM Module-ccsds-headers;

  Cfe-cmd-header ::= SEQUENCE {
    primary Ccsds-primary-header,
    secondary Cfe-tc-secondary-header
  }

  Cfe-tlm-header ::= SEQUENCE {
    primary Ccsds-primary-header,
    secondary Cfe-tm-secondary-header,
    spare Uint32-t  -- Spares
  }

  Cfe-tc-secondary-header ::= SEQUENCE {
    function-code Uint8-t,
    checksum Uint8-t
  }

  Cfe-tm-secondary-header ::= SEQUENCE {
    seconds Uint32-t, -- [sec]
    subsecs Uint16-t -- unit: 2**-16 sec = 0.015 ms
  }

END
");
("module1.asn", "Module-module1 DEFINITIONS AUTOMATIC TAGS ::= BEGIN

  IMPORTS Cfe-tlm-header FROM Module-cfe-headers;

  Packet1 ::= SEQUENCE {
    header Cfe-tlm-header (WITH COMPONENTS {
      primary (WITH COMPONENTS {
        packet-identification (WITH COMPONENTS {
          packet-version-number (0),
          packet-type-is-cmd (FALSE),
          sec-hdr-flag-is-present (TRUE),
          application-process-identifier (154)
        })
      })
    })
  }

END
");
("module2.asn", "Module-module2 DEFINITIONS AUTOMATIC TAGS ::= BEGIN

  IMPORTS Cfe-tlm-header FROM Module-cfe-headers;

  Packet2 ::= SEQUENCE {
    header Cfe-tlm-header (WITH COMPONENTS {
      primary (WITH COMPONENTS {
        packet-identification (WITH COMPONENTS {
          packet-version-number (0),
          packet-type-is-cmd (FALSE),
          sec-hdr-flag-is-present (TRUE),
          application-process-identifier (155)
        })
      })
    })
  }

END
");
("simple-types.asn", "Module-simple-types DEFINITIONS AUTOMATIC TAGS ::= BEGIN

  Real-range ::= REAL(-1.0e-40 .. +1.0e+40)

  Uint3 ::= INTEGER(0..7)
  Uint11 ::= INTEGER(0..2047)
  Uint14 ::= INTEGER(0..16383)

  Uint8-t ::= INTEGER(0..255)
  Uint16-t ::= INTEGER(0..65535)
  Uint32-t ::= INTEGER(0..4294967295)
  Uint64-t ::= INTEGER(0..18446744073709551615)

END
")]
 [("module1_msg.h", "#ifndef ASN1_PARSER_MODULE1_MSG_H_INCLUDED
#define ASN1_PARSER_MODULE1_MSG_H_INCLUDED

/*
This file was autogenerated from ASN.1 model.
*/

#include ""cfe_headers_msg.h""

typedef struct
{
  Cfe_tlm_header header;
} __attribute__((packed)) Packet1;

#endif // ASN1_PARSER_MODULE1_MSG_H_INCLUDED
");
("module2_msg.h", "#ifndef ASN1_PARSER_MODULE2_MSG_H_INCLUDED
#define ASN1_PARSER_MODULE2_MSG_H_INCLUDED

/*
This file was autogenerated from ASN.1 model.
*/

#include ""cfe_headers_msg.h""

typedef struct
{
  Cfe_tlm_header header;
} __attribute__((packed)) Packet2;

#endif // ASN1_PARSER_MODULE2_MSG_H_INCLUDED
");
("module1_msgids.h", "#ifndef ASN1_PARSER_MODULE1_MSGIDS_H_INCLUDED
#define ASN1_PARSER_MODULE1_MSGIDS_H_INCLUDED

/*
This file was autogenerated from ASN.1 model.
*/

#define PACKET1_MID (0x089A)

#endif // ASN1_PARSER_MODULE1_MSGIDS_H_INCLUDED
");
("module2_msgids.h", "#ifndef ASN1_PARSER_MODULE2_MSGIDS_H_INCLUDED
#define ASN1_PARSER_MODULE2_MSGIDS_H_INCLUDED

/*
This file was autogenerated from ASN.1 model.
*/

#define PACKET2_MID (0x089B)

#endif // ASN1_PARSER_MODULE2_MSGIDS_H_INCLUDED
")] = true.
Proof. vm_compute. reflexivity. Qed.

(** tests/integration/generators/cfs/14_multimodule_import_same_module *)
Example conformance_26 : produces (ArgsCfs ["header.asn"; "module1.asn"; "module2.asn"] "module1,module2,imported-module")
 [("header.asn", "Module-imported-module DEFINITIONS AUTOMATIC TAGS ::= BEGIN

  Imported-packet1 ::= SEQUENCE {
    imported-definition1 INTEGER(0..7)
  }

  Imported-packet2 ::= SEQUENCE {
    imported-definition2 INTEGER(0..2047)
  }

END
");
("module1.asn", "Module-module1 DEFINITIONS AUTOMATIC TAGS ::= BEGIN

  IMPORTS Imported-packet1 FROM Module-imported-module;

  Packet1 ::= SEQUENCE {
    import Imported-packet1
    (WITH COMPONENTS {
      imported-definition1 (WITH COMPONENTS {
          variable (7)
        })
    })
  }

END");
("module2.asn", "Module-module2 DEFINITIONS AUTOMATIC TAGS ::= BEGIN

  IMPORTS Imported-packet2 FROM Module-imported-module;

  Packet2 ::= SEQUENCE {
    import Imported-packet2
    (WITH COMPONENTS {
      imported-definition2 (WITH COMPONENTS {
          variable (37)
        })
    })
  }

END")]
 [("module1_msg.h", "#ifndef ASN1_PARSER_MODULE1_MSG_H_INCLUDED
#define ASN1_PARSER_MODULE1_MSG_H_INCLUDED

/*
This file was autogenerated from ASN.1 model.
*/

#include ""imported_module_msg.h""

typedef struct
{
  Imported_packet1 import;
} __attribute__((packed)) Packet1;

#endif // ASN1_PARSER_MODULE1_MSG_H_INCLUDED
");
("module2_msg.h", "#ifndef ASN1_PARSER_MODULE2_MSG_H_INCLUDED
#define ASN1_PARSER_MODULE2_MSG_H_INCLUDED

/*
This file was autogenerated from ASN.1 model.
*/

#include ""imported_module_msg.h""

typedef struct
{
  Imported_packet2 import;
} __attribute__((packed)) Packet2;

#endif // ASN1_PARSER_MODULE2_MSG_H_INCLUDED
");
("imported_module_msg.h", "#ifndef ASN1_PARSER_IMPORTED_MODULE_MSG_H_INCLUDED
#define ASN1_PARSER_IMPORTED_MODULE_MSG_H_INCLUDED

/*
This file was autogenerated from ASN.1 model.
*/

#include <stdint.h>

typedef struct
{
  uint8_t imported_definition1 : 3;
} __attribute__((packed)) Imported_packet1;

typedef struct
{
  uint16_t imported_definition2 : 11;
} __attribute__((packed)) Imported_packet2;

#endif // ASN1_PARSER_IMPORTED_MODULE_MSG_H_INCLUDED
")] = true.
Proof. vm_compute. reflexivity. Qed.

(** tests/integration/generators/cfs/20_basic_cfs_generation *)
Example conformance_27 : produces (ArgsCfs ["ccsds-headers.asn"; "cfe-headers.asn"; "sandbox_hk_pc.asn"; "simple-types.asn"] "ccsds-headers,cfe-headers,sandbox-hk-pc,simple-types")
 [("ccsds-headers.asn", "Module-ccsds-headers DEFINITIONS AUTOMATIC TAGS ::= BEGIN -- CCSDS TM/TC headers

  IMPORTS Uint3, Uint11, Uint14, Uint8-t, Uint16-t, Uint32-t FROM Module-simple-types;

  Ccsds-primary-header ::= SEQUENCE { -- primary header
    packet-identification Packet-identification,
    packet-sequence-control Packet-sequence-control,
    packet-data-length Uint16-t -- length of the packet
  }

  Packet-identification ::= SEQUENCE {
    packet-version-number Uint3, -- moved from Ccsds-primary-header to here to avoid C compiler padding issues
    packet-type-is-cmd BOOLEAN,
    sec-hdr-flag-is-present BOOLEAN,
    application-process-identifier Uint11
  }

  Packet-sequence-control ::= SEQUENCE {
    sequence-flags Sequence-flag,
    packet-sequence-count Uint14
  }

  Sequence-flag ::= ENUMERATED {
    continuation-packet-in-sequence (0),
    first-packet-in-sequence (1),
    last-packet-in-sequence (2),
    complete-packet(3)
  }

  Ccsds-extended-header ::= SEQUENCE {
    subsystem Uint16-t,
    system-id Uint16-t
  }

END
");
("cfe-headers.asn", "Module-cfe-headers DEFINITIONS AUTOMATIC TAGS ::= BEGIN -- cFE TM/TC headers

  IMPORTS Uint8-t, Uint16-t, Uint32-t FROM Module-simple-types
          Ccsds-primary-header FROM Module-ccsds-headers;

  Cfe-cmd-header ::= SEQUENCE {
    primary Ccsds-primary-header,
    secondary Cfe-tc-secondary-header
  }

  Cfe-tlm-header ::= SEQUENCE {
    primary Ccsds-primary-header,
    secondary Cfe-tm-secondary-header,
    spare Uint32-t  -- Spares
  }

  Cfe-tc-secondary-header ::= SEQUENCE {
    function-code Uint8-t,
    checksum Uint8-t
  }

  Cfe-tm-secondary-header ::= SEQUENCE {
    seconds Uint32-t, -- [sec]
    subsecs Uint16-t -- unit: 2**-16 sec = 0.015 ms
  }

END
");
("sandbox_hk_pc.asn", "Module-sandbox-hk-pc DEFINITIONS AUTOMATIC TAGS ::= BEGIN

  IMPORTS Cfe-tlm-header FROM Module-cfe-headers
          Uint64-t FROM Module-simple-types;

  Percent-range ::= REAL(0.00 .. 100.00)
  Load-range ::= REAL(0.00 .. 30.00)

  Sandbox-hk-pc ::= SEQUENCE { -- (0x0899) SANDBOX PC housekeeping telemetry
    header Cfe-tlm-header (WITH COMPONENTS {
      primary (WITH COMPONENTS {
        packet-identification (WITH COMPONENTS {
          packet-version-number (0),
          packet-type-is-cmd (FALSE),
          sec-hdr-flag-is-present (TRUE),
          application-process-identifier (153)
        })
      })
    }),
    payload Payload-sandbox-hk-pc
  }

  Payload-sandbox-hk-pc ::= SEQUENCE {
    cpu Percent-range, -- [%] CPU usage
    load1 Load-range, -- load from 1 minute average
    load5 Load-range, -- load from 5 minutes average
    load15 Load-range, -- load from 15 minutes average
    total-ram Uint64-t, -- [byte] total RAM
    free-ram Uint64-t, -- [byte] free RAM
    free-swap Uint64-t -- [byte] free SWAP
  }

END
");
("simple-types.asn", "Module-simple-types DEFINITIONS AUTOMATIC TAGS ::= BEGIN

  Real-range ::= REAL(-1.0e-40 .. +1.0e+40)

  Uint3 ::= INTEGER(0..7)
  Uint11 ::= INTEGER(0..2047)
  Uint14 ::= INTEGER(0..16383)

  Uint8-t ::= INTEGER(0..255)
  Uint16-t ::= INTEGER(0..65535)
  Uint32-t ::= INTEGER(0..4294967295)
  Uint64-t ::= INTEGER(0..18446744073709551615)

END
")]
 [("ccsds_headers_msg.h", "#ifndef ASN1_PARSER_CCSDS_HEADERS_MSG_H_INCLUDED
#define ASN1_PARSER_CCSDS_HEADERS_MSG_H_INCLUDED

/*
This file was autogenerated from ASN.1 model.

CCSDS TM/TC headers
*/

#include <stdint.h>
#include ""simple_types_msg.h""

typedef struct
{
  // moved from Ccsds-primary-header to here to avoid C compiler padding issues
  uint8_t packet_version_number : 3;
  uint8_t packet_type_is_cmd : 1;
  uint8_t sec_hdr_flag_is_present : 1;
  uint16_t application_process_identifier : 11;
} __attribute__((packed)) Packet_identification;

typedef enum {
  continuation_packet_in_sequence = 0,
  first_packet_in_sequence = 1,
  last_packet_in_sequence = 2,
  complete_packet = 3,
} __attribute__((packed)) Sequence_flag;

typedef struct
{
  uint16_t subsystem;
  uint16_t system_id;
} __attribute__((packed)) Ccsds_extended_header;

typedef struct
{
  Sequence_flag sequence_flags : 2;
  uint16_t packet_sequence_count : 14;
} __attribute__((packed)) Packet_sequence_control;

/* primary header */
typedef struct
{
  Packet_identification packet_identification;
  Packet_sequence_control packet_sequence_control;
  // length of the packet
  uint16_t packet_data_length;
} __attribute__((packed)) Ccsds_primary_header;

#endif // ASN1_PARSER_CCSDS_HEADERS_MSG_H_INCLUDED
");
("cfe_headers_msg.h", "#ifndef ASN1_PARSER_CFE_HEADERS_MSG_H_INCLUDED
#define ASN1_PARSER_CFE_HEADERS_MSG_H_INCLUDED

/*
This file was autogenerated from ASN.1 model.

cFE TM/TC headers
*/

#include <stdint.h>
#include ""simple_types_msg.h""
#include ""ccsds_headers_msg.h""

typedef struct
{
  uint8_t function_code;
  uint8_t checksum;
} __attribute__((packed)) Cfe_tc_secondary_header;

typedef struct
{
  // [sec]
  uint32_t seconds;
  // unit: 2**-16 sec = 0.015 ms
  uint16_t subsecs;
} __attribute__((packed)) Cfe_tm_secondary_header;

typedef struct
{
  Ccsds_primary_header primary;
  Cfe_tc_secondary_header secondary;
} __attribute__((packed)) Cfe_cmd_header;

typedef struct
{
  Ccsds_primary_header primary;
  Cfe_tm_secondary_header secondary;
  // Spares
  uint32_t spare;
} __attribute__((packed)) Cfe_tlm_header;

#endif // ASN1_PARSER_CFE_HEADERS_MSG_H_INCLUDED
");
("sandbox_hk_pc_msg.h", "#ifndef ASN1_PARSER_SANDBOX_HK_PC_MSG_H_INCLUDED
#define ASN1_PARSER_SANDBOX_HK_PC_MSG_H_INCLUDED

/*
This file was autogenerated from ASN.1 model.
*/

#include <stdint.h>
#include ""cfe_headers_msg.h""
#include ""simple_types_msg.h""
// NOTE: The simple type 'Percent-range' has been generated to a C builtin type and is used directly in 'sandbox-hk-pc'
// NOTE: The simple type 'Load-range' has been generated to a C builtin type and is used directly in 'sandbox-hk-pc'

typedef struct
{
  // [%] CPU usage
  float cpu;
  // load from 1 minute average
  float load1;
  // load from 5 minutes average
  float load5;
  // load from 15 minutes average
  float load15;
  // [byte] total RAM
  uint64_t total_ram;
  // [byte] free RAM
  uint64_t free_ram;
  // [byte] free SWAP
  uint64_t free_swap;
} __attribute__((packed)) Payload_sandbox_hk_pc;

/* (0x0899) SANDBOX PC housekeeping telemetry */
typedef struct
{
  Cfe_tlm_header header;
  Payload_sandbox_hk_pc payload;
} __attribute__((packed)) Sandbox_hk_pc;

#endif // ASN1_PARSER_SANDBOX_HK_PC_MSG_H_INCLUDED
");
("sandbox_hk_pc_msgids.h", "#ifndef ASN1_PARSER_SANDBOX_HK_PC_MSGIDS_H_INCLUDED
#define ASN1_PARSER_SANDBOX_HK_PC_MSGIDS_H_INCLUDED

/*
This file was autogenerated from ASN.1 model.
*/

#define SANDBOX_HK_PC_MID (0x0899)

#endif // ASN1_PARSER_SANDBOX_HK_PC_MSGIDS_H_INCLUDED
");
("simple_types_msg.h", "#ifndef ASN1_PARSER_SIMPLE_TYPES_MSG_H_INCLUDED
#define ASN1_PARSER_SIMPLE_TYPES_MSG_H_INCLUDED

/*
This file was autogenerated from ASN.1 model.
*/

// NOTE: The simple type 'Uint3' has been generated to a C bitfield type and is used directly in 'ccsds-headers'
// NOTE: The simple type 'Uint11' has been generated to a C bitfield type and is used directly in 'ccsds-headers'
// NOTE: The simple type 'Uint14' has been generated to a C bitfield type and is used directly in 'ccsds-headers'
// NOTE: The simple type 'Uint8-t' has been generated to a C builtin type and is used directly in 'cfe-headers'
// NOTE: The simple type 'Uint16-t' has been generated to a C builtin type and is used directly in 'ccsds-headers', 'cfe-headers'
// NOTE: The simple type 'Uint32-t' has been generated to a C builtin type and is used directly in 'cfe-headers'
// NOTE: The simple type 'Uint64-t' has been generated to a C builtin type and is used directly in 'sandbox-hk-pc'

#endif // ASN1_PARSER_SIMPLE_TYPES_MSG_H_INCLUDED
")] = true.
Proof. vm_compute. reflexivity. Qed.

(** tests/integration/generators/cfs/21_sorted_items *)
Example conformance_28 : produces (ArgsCfs ["test-module-deps.asn"; "test-module-ordered.asn"] "test-module-deps,test-module-ordered")
 [("test-module-deps.asn", "Module-test-module-deps DEFINITIONS AUTOMATIC TAGS ::= BEGIN

  Test-seq-3 ::= SEQUENCE {
    field1 Type-seq-21,
    field2 Type-seq-22
  }


  Type-seq-21 ::= SEQUENCE {
    field1 Type211,
    field2 Type212
  }

  Type-seq-22 ::= SEQUENCE {
    field1 Type221,
    field2 Type222
  }


  Type211 ::= INTEGER(0..11)
  Type212 ::= INTEGER(0..12)
  Type221 ::= INTEGER(0..13)
  Type222 ::= INTEGER(0..14)

END
");
("test-module-ordered.asn", "Module-test-module-ordered DEFINITIONS AUTOMATIC TAGS ::= BEGIN

  Type11 ::= INTEGER(0..11)
  Type12 ::= INTEGER(0..12)
  Type13 ::= INTEGER(0..13)
  Type14 ::= INTEGER(0..14)
  Type15 ::= INTEGER(0..15)

END
")]
 [("test_module_deps_msg.h", "#ifndef ASN1_PARSER_TEST_MODULE_DEPS_MSG_H_INCLUDED
#define ASN1_PARSER_TEST_MODULE_DEPS_MSG_H_INCLUDED

/*
This file was autogenerated from ASN.1 model.
*/

#include <stdint.h>
// NOTE: The simple type 'Type211' has been generated to a C bitfield type and is used directly in 'test-module-deps'
// NOTE: The simple type 'Type212' has been generated to a C bitfield type and is used directly in 'test-module-deps'
// NOTE: The simple type 'Type221' has been generated to a C bitfield type and is used directly in 'test-module-deps'
// NOTE: The simple type 'Type222' has been generated to a C bitfield type and is used directly in 'test-module-deps'

typedef struct
{
  uint8_t field1 : 4;
  uint8_t field2 : 4;
} __attribute__((packed)) Type_seq_21;

typedef struct
{
  uint8_t field1 : 4;
  uint8_t field2 : 4;
} __attribute__((packed)) Type_seq_22;

typedef struct
{
  Type_seq_21 field1;
  Type_seq_22 field2;
} __attribute__((packed)) Test_seq_3;

#endif // ASN1_PARSER_TEST_MODULE_DEPS_MSG_H_INCLUDED
");
("test_module_ordered_msg.h", "#ifndef ASN1_PARSER_TEST_MODULE_ORDERED_MSG_H_INCLUDED
#define ASN1_PARSER_TEST_MODULE_ORDERED_MSG_H_INCLUDED

/*
This file was autogenerated from ASN.1 model.
*/


#endif // ASN1_PARSER_TEST_MODULE_ORDERED_MSG_H_INCLUDED
")] = true.
Proof. vm_compute. reflexivity. Qed.

(** tests/integration/generators/cfs/22_all_kinds_of_comments *)
Example conformance_29 : produces (ArgsCfs ["test-module.asn"; "test-simple-types1.asn"; "test-simple-types2.asn"] "test-module,test-simple-types1,test-simple-types2")
 [("test-module.asn", "Module-test-module DEFINITIONS AUTOMATIC TAGS ::= BEGIN -- Module test-module comment

  IMPORTS Simple-types-1-type1, Simple-types-1-type2 FROM Module-test-simple-types1 -- import comment ignored
          Simple-types-2-type1, Simple-types-2-type2 FROM Module-test-simple-types2; -- import comment used

  Test-module-test-seq ::= SEQUENCE { -- Test-seq comment
    test-module-test-seq-1-field-1 Test-module-type-seq-1, -- testseq1 field1 comment
    test-module-test-seq-1-field-2 Test-module-type-seq-2 -- testseq1 field2 comment
  }


  Test-module-type-seq-1 ::= SEQUENCE { -- Type-seq-1 comment
    test-module-type-seq-1-field-1 Simple-types-1-type1, -- ts1 field1 comment
    test-module-type-seq-1-field-2 Simple-types-1-type2 -- ts1 field2 comment
  }

  Test-module-type-seq-2 ::= SEQUENCE { -- Type-seq-2 comment
    test-module-type-seq-2-field-1 Simple-types-2-type1, -- ts2 field1 comment
    test-module-type-seq-2-field-2 Simple-types-2-type2 -- ts2 field2 comment
  }

END
");
("test-simple-types1.asn", "Module-test-simple-types1 DEFINITIONS AUTOMATIC TAGS ::= BEGIN -- Module test-simple-types1 comment

  Simple-types-1-type1 ::= INTEGER(0..11) -- int 0-11 comment
  Simple-types-1-type2 ::= INTEGER(0..12) -- int 0-12 comment

END
");
("test-simple-types2.asn", "Module-test-simple-types2 DEFINITIONS AUTOMATIC TAGS ::= BEGIN -- Module test-simple-types2 comment

  Simple-types-2-type1 ::= INTEGER(0..13) -- int 0-13 comment
  Simple-types-2-type2 ::= INTEGER(0..14) -- int 0-14 comment

END
")]
 [("test_module_msg.h", "#ifndef ASN1_PARSER_TEST_MODULE_MSG_H_INCLUDED
#define ASN1_PARSER_TEST_MODULE_MSG_H_INCLUDED

/*
This file was autogenerated from ASN.1 model.

Module test-module comment
*/

#include <stdint.h>
// import comment used
#include ""test_simple_types1_msg.h""
#include ""test_simple_types2_msg.h""

/* Type-seq-1 comment */
typedef struct
{
  // ts1 field1 comment
  uint8_t test_module_type_seq_1_field_1 : 4;
  // ts1 field2 comment
  uint8_t test_module_type_seq_1_field_2 : 4;
} __attribute__((packed)) Test_module_type_seq_1;

/* Type-seq-2 comment */
typedef struct
{
  // ts2 field1 comment
  uint8_t test_module_type_seq_2_field_1 : 4;
  // ts2 field2 comment
  uint8_t test_module_type_seq_2_field_2 : 4;
} __attribute__((packed)) Test_module_type_seq_2;

/* Test-seq comment */
typedef struct
{
  // testseq1 field1 comment
  Test_module_type_seq_1 test_module_test_seq_1_field_1;
  // testseq1 field2 comment
  Test_module_type_seq_2 test_module_test_seq_1_field_2;
} __attribute__((packed)) Test_module_test_seq;

#endif // ASN1_PARSER_TEST_MODULE_MSG_H_INCLUDED
");
("test_simple_types1_msg.h", "#ifndef ASN1_PARSER_TEST_SIMPLE_TYPES1_MSG_H_INCLUDED
#define ASN1_PARSER_TEST_SIMPLE_TYPES1_MSG_H_INCLUDED

/*
This file was autogenerated from ASN.1 model.

Module test-simple-types1 comment
*/

// NOTE: The simple type 'Simple-types-1-type1' has been generated to a C bitfield type and is used directly in 'test-module'
// NOTE: The simple type 'Simple-types-1-type2' has been generated to a C bitfield type and is used directly in 'test-module'

#endif // ASN1_PARSER_TEST_SIMPLE_TYPES1_MSG_H_INCLUDED
");
("test_simple_types2_msg.h", "#ifndef ASN1_PARSER_TEST_SIMPLE_TYPES2_MSG_H_INCLUDED
#define ASN1_PARSER_TEST_SIMPLE_TYPES2_MSG_H_INCLUDED

/*
This file was autogenerated from ASN.1 model.

Module test-simple-types2 comment
*/

// NOTE: The simple type 'Simple-types-2-type1' has been generated to a C bitfield type and is used directly in 'test-module'
// NOTE: The simple type 'Simple-types-2-type2' has been generated to a C bitfield type and is used directly in 'test-module'

#endif // ASN1_PARSER_TEST_SIMPLE_TYPES2_MSG_H_INCLUDED
")] = true.
Proof. vm_compute. reflexivity. Qed.

(** tests/integration/generators/cosmos/01_basic_cosmos_generation *)
Example conformance_30 : produces (ArgsCosmos ["header.asn"; "sandbox_hk_pc.asn"; "simple_definitions.asn"] "sandbox-hk-pc" "Sandbox-hk-pc" "sandbox")
 [("header.asn", "Module-tmtc-header DEFINITIONS AUTOMATIC TAGS ::= BEGIN -- CCSDS TM/TC header

  IMPORTS Uint3, Uint11, Uint14, Uint16-t, Uint32-t FROM Module-simple-types;

  Ccsds-primary-header ::= SEQUENCE { -- primary header
    packet-version-number Uint3,
    packet-identification Packet-identification,
    packet-sequence-control Packet-sequence-control,
    packet-data-length Uint16-t -- length of the packet
  }

  Packet-identification ::= SEQUENCE {
    packet-type-is-cmd BOOLEAN,
    sec-hdr-flag-is-present BOOLEAN,
    application-process-identifier Uint11
  }

  Packet-sequence-control ::= SEQUENCE {
    sequence-flags Sequence-flag,
    packet-sequence-count Uint14
  }

  Sequence-flag ::= ENUMERATED {
    continuation-packet-in-sequence (0),
    first-packet-in-sequence (1),
    last-packet-in-sequence (2),
    complete-packet(3)
  }

  Secondary-header ::= SEQUENCE {
    seconds Uint32-t, -- [sec]
    subsecs Uint16-t, -- [ms]
    spare-2-align Uint32-t -- Spares
  }

END
");
("sandbox_hk_pc.asn", "Module-sandbox-hk-pc DEFINITIONS AUTOMATIC TAGS ::= BEGIN

  IMPORTS Ccsds-primary-header, Secondary-header FROM Module-tmtc-header
          Uint64-t FROM Module-simple-types;

  Percent-range ::= REAL(0.00 .. 100.00)
  Load-range ::= REAL(0.00 .. 30.00)

  Sandbox-hk-pc ::= SEQUENCE { -- (0x0899) SANDBOX PC housekeeping telemetry
    primary-header Ccsds-primary-header
      (WITH COMPONENTS {
        packet-version-number (0),
        packet-identification (WITH COMPONENTS {
          packet-type-is-cmd (FALSE),
          sec-hdr-flag-is-present (TRUE),
          application-process-identifier (153)
        })
      }),
    secondary-header Secondary-header,
    payload Payload-sandbox-hk-pc
  }

  Payload-sandbox-hk-pc ::= SEQUENCE {
    cpu Percent-range, -- [%] CPU usage
    load1 Load-range, -- load from 1 minute average
    load5 Load-range, -- load from 5 minutes average
    load15 Load-range, -- load from 15 minutes average
    total-ram Uint64-t, -- [byte] total RAM
    free-ram Uint64-t, -- [byte] free RAM
    free-swap Uint64-t -- [byte] free SWAP
  }

END
");
("simple_definitions.asn", "Module-simple-types DEFINITIONS AUTOMATIC TAGS ::= BEGIN

  Uint3 ::= INTEGER(0..7)
  Uint11 ::= INTEGER(0..2047)
  Uint14 ::= INTEGER(0..16383)
  Uint16-t ::= INTEGER(0..65535)
  Uint32-t ::= INTEGER(0..4294967295)
  Uint64-t ::= INTEGER(0..18446744073709551615)

END
")]
 [("sandbox.txt", "# This file was autogenerated from ASN.1 model.

TELEMETRY sandbox Sandbox-hk-pc BIG_ENDIAN ""(0x0899) SANDBOX PC housekeeping telemetry""
    APPEND_ID_ITEM      packet-version-number                 3 UINT          0 """"
    APPEND_ID_ITEM      packet-type-is-cmd                    1 UINT          0 """"
        STATE False                           0
        STATE True                            1
    APPEND_ID_ITEM      sec-hdr-flag-is-present               1 UINT          1 """"
        STATE False                           0
        STATE True                            1
    APPEND_ID_ITEM      application-process-identifier       11 UINT       0x99 """"
    APPEND_ITEM         sequence-flags                        2 UINT            """"
        STATE continuation-packet-in-sequence 0
        STATE first-packet-in-sequence        1
        STATE last-packet-in-sequence         2
        STATE complete-packet                 3
    APPEND_ITEM         packet-sequence-count                14 UINT            """"
    APPEND_ITEM         packet-data-length                   16 UINT            ""length of the packet""
    APPEND_ITEM         seconds                              32 UINT            """"
        UNITS sec sec
    APPEND_ITEM         subsecs                              16 UINT            """"
        UNITS ms ms
    APPEND_ITEM         spare-2-align                        32 UINT            ""Spares""
    APPEND_ITEM         cpu                                  32 FLOAT           ""CPU usage""
        LIMITS DEFAULT 5 ENABLED 0.0 0.0 100.0 100.0
        UNITS % %
    APPEND_ITEM         load1                                32 FLOAT           ""load from 1 minute average""
        LIMITS DEFAULT 5 ENABLED 0.0 0.0 30.0 30.0
    APPEND_ITEM         load5                                32 FLOAT           ""load from 5 minutes average""
        LIMITS DEFAULT 5 ENABLED 0.0 0.0 30.0 30.0
    APPEND_ITEM         load15                               32 FLOAT           ""load from 15 minutes average""
        LIMITS DEFAULT 5 ENABLED 0.0 0.0 30.0 30.0
    APPEND_ITEM         total-ram                            64 UINT            ""total RAM""
        UNITS byte byte
    APPEND_ITEM         free-ram                             64 UINT            ""free RAM""
        UNITS byte byte
    APPEND_ITEM         free-swap                            64 UINT            ""free SWAP""
        UNITS byte byte
")] = true.
Proof. vm_compute. reflexivity. Qed.

(** tests/integration/generators/cosmos/02_generating_arrays *)
Example conformance_31 : produces (ArgsCosmos ["example.asn"] "example" "Example" "example")
 [("example.asn", "Module-example DEFINITIONS AUTOMATIC TAGS ::= BEGIN
    Digits ::= INTEGER(0..9)

    Example ::= SEQUENCE {
        zip-code SEQUENCE (SIZE (5)) OF Digits
    }
END
")]
 [("example.txt", "# This file was autogenerated from ASN.1 model.

TELEMETRY example Example BIG_ENDIAN """"
    APPEND_ARRAY_ITEM   zip-code                              4 UINT         20 """"
")] = true.
Proof. vm_compute. reflexivity. Qed.

(** tests/integration/generators/cosmos/03_generating_strings *)
Example conformance_32 : produces (ArgsCosmos ["example.asn"] "example" "Simple-choice" "example")
 [("example.asn", "Module-example DEFINITIONS AUTOMATIC TAGS ::= BEGIN

  Digits ::= INTEGER(0..9)

  Simple-choice ::= SEQUENCE {
    sleep Sleep-time,
    eat SEQUENCE (SIZE (2)) OF Food, -- select two food
    visible-string IA5String (SIZE (128)),
    numeric-string NumericString (SIZE (129)),
    zip-code SEQUENCE (SIZE (5)) OF Digits -- your 5 digit zip code
  }

  Food ::= ENUMERATED {
    carrot,
    apple,
    banana
  }

  Sleep-time ::= SEQUENCE {
    begin Time,
    end Time
  }

  Time ::= SEQUENCE {
    hour INTEGER(0..23),     -- [h]
    minute INTEGER(0..59)     -- [min]
  }

END
")]
 [("example.txt", "# This file was autogenerated from ASN.1 model.

TELEMETRY example Simple-choice BIG_ENDIAN """"
    APPEND_ITEM         hour                                  5 UINT            """"
        UNITS h h
    APPEND_ITEM         minute                                6 UINT            """"
        UNITS min min
    APPEND_ITEM         hour                                  5 UINT            """"
        UNITS h h
    APPEND_ITEM         minute                                6 UINT            """"
        UNITS min min
    APPEND_ARRAY_ITEM   eat                                   2 UINT          4 ""select two food""
        STATE carrot                          0
        STATE apple                           1
        STATE banana                          2
    APPEND_ITEM         visible-string                     1024 STRING          """"
    APPEND_ITEM         numeric-string                     1032 STRING          """"
    APPEND_ARRAY_ITEM   zip-code                              4 UINT         20 ""your 5 digit zip code""
")] = true.
Proof. vm_compute. reflexivity. Qed.

(** tests/integration/generators/cosmos/04_driver_model_demo *)
Example conformance_33 : produces (ArgsCosmos ["ccsds-headers.asn"; "cfe-headers.asn"; "gnc.asn"; "simple-types.asn"; "uart_driver.asn"] "gnc" "Gnc-data-tlm" "gnc")
 [("ccsds-headers.asn", "Module-ccsds-headers DEFINITIONS AUTOMATIC TAGS ::= BEGIN -- CCSDS TM/TC headers

  IMPORTS Uint3, Uint11, Uint14, Uint8-t, Uint16-t, Uint32-t FROM Module-simple-types;

  Ccsds-primary-header ::= SEQUENCE { -- primary header
    packet-version-number Uint3,
    packet-identification Packet-identification,
    packet-sequence-control Packet-sequence-control,
    packet-data-length Uint16-t -- length of the packet
  }

  Packet-identification ::= SEQUENCE {
    packet-type-is-cmd BOOLEAN,
    sec-hdr-flag-is-present BOOLEAN,
    application-process-identifier Uint11
  }

  Packet-sequence-control ::= SEQUENCE {
    sequence-flags Sequence-flag,
    packet-sequence-count Uint14
  }

  Sequence-flag ::= ENUMERATED {
    continuation-packet-in-sequence (0),
    first-packet-in-sequence (1),
    last-packet-in-sequence (2),
    complete-packet(3)
  }

  Ccsds-extended-header ::= SEQUENCE {
    subsystem Uint16-t,
    system-id Uint16-t
  }

END
");
("cfe-headers.asn", "Module-cfe-headers DEFINITIONS AUTOMATIC TAGS ::= BEGIN -- cFE TM/TC headers

  IMPORTS Uint8-t, Uint16-t, Uint32-t FROM Module-simple-types
          Ccsds-primary-header FROM Module-ccsds-headers;

  Cfe-cmd-header ::= SEQUENCE {
    primary Ccsds-primary-header,
    secondary Cfe-tc-secondary-header
  }

  Cfe-tlm-header ::= SEQUENCE {
    primary Ccsds-primary-header,
    secondary Cfe-tm-secondary-header,
    spare Uint32-t  -- Spares
  }

  Cfe-tc-secondary-header ::= SEQUENCE {
    function-code Uint8-t,
    checksum Uint8-t
  }

  Cfe-tm-secondary-header ::= SEQUENCE {
    seconds Uint32-t, -- [sec]
    subsecs Uint16-t -- unit: 2**-16 sec = 0.015 ms
  }

END
");
("gnc.asn", "Module-gnc DEFINITIONS AUTOMATIC TAGS ::= BEGIN

  IMPORTS Cfe-tlm-header FROM Module-cfe-headers
          Real-range FROM Module-simple-types;

  Gnc-data-tlm ::= SEQUENCE { -- GNC_DATA_MID gnc_DataTlm_t (0x08A0)
      header Cfe-tlm-header (WITH COMPONENTS {
      primary (WITH COMPONENTS {
        packet-version-number (0),
        packet-identification (WITH COMPONENTS {
          packet-type-is-cmd (FALSE),
          sec-hdr-flag-is-present (TRUE),
          application-process-identifier (160)
        })
      })
    }),
    payload Payload-gnc-data-tlm
  }

  Payload-gnc-data-tlm ::= SEQUENCE {
    pos Real-range,   -- ENDIANNESS(LITTLE) [m]
    vel Real-range,   -- ENDIANNESS(LITTLE) [m/s]
    acc Real-range,   -- ENDIANNESS(LITTLE) [m/s^2]
    p Real-range,     -- ENDIANNESS(LITTLE)
    i Real-range,     -- ENDIANNESS(LITTLE)
    d Real-range,     -- ENDIANNESS(LITTLE)
    thrust Real-range -- ENDIANNESS(LITTLE) [N]
  }

END
");
("simple-types.asn", "Module-simple-types DEFINITIONS AUTOMATIC TAGS ::= BEGIN

  Real-range ::= REAL(-1.0e-40 .. +1.0e+40)

  Uint3 ::= INTEGER(0..7)
  Uint11 ::= INTEGER(0..2047)
  Uint14 ::= INTEGER(0..16383)

  Uint8-t ::= INTEGER(0..255)
  Uint16-t ::= INTEGER(0..65535)
  Uint32-t ::= INTEGER(0..4294967295)
  Uint64-t ::= INTEGER(0..18446744073709551615)

END
");
("uart_driver.asn", "Module-uart-driver DEFINITIONS AUTOMATIC TAGS ::= BEGIN

  IMPORTS Cfe-tlm-header FROM Module-cfe-headers
          Real-range FROM Module-simple-types;



  Uart-driver-uart0-read-tlm ::= SEQUENCE { -- UART_DRIVER_UART_0_READ_MID uart_driver_ReadTlm_t (0x08D0)
    header Cfe-tlm-header (WITH COMPONENTS {
      primary (WITH COMPONENTS {
        packet-version-number (0),
        packet-identification (WITH COMPONENTS {
          packet-type-is-cmd (FALSE),
          sec-hdr-flag-is-present (TRUE),
          application-process-identifier (208)
        })
      })
    }),
    payload Payload-uart-driver
  }

  Uart-driver-uart1-read-tlm ::= SEQUENCE { -- UART_DRIVER_UART_1_READ_MID uart_driver_ReadTlm_t (0x08D1)
    header Cfe-tlm-header (WITH COMPONENTS {
      primary (WITH COMPONENTS {
        packet-version-number (0),
        packet-identification (WITH COMPONENTS {
          packet-type-is-cmd (FALSE),
          sec-hdr-flag-is-present (TRUE),
          application-process-identifier (209)
        })
      })
    }),
    payload Payload-uart-driver
  }



  Payload-uart-driver ::= SEQUENCE {
    raw Real-range -- [m] TODO String
  }

END
")]
 [("gnc.txt", "# This file was autogenerated from ASN.1 model.

TELEMETRY gnc Gnc-data-tlm BIG_ENDIAN ""GNC_DATA_MID gnc_DataTlm_t (0x08A0)""
    APPEND_ID_ITEM      packet-version-number                 3 UINT          0 """"
    APPEND_ID_ITEM      packet-type-is-cmd                    1 UINT          0 """"
        STATE False                           0
        STATE True                            1
    APPEND_ID_ITEM      sec-hdr-flag-is-present               1 UINT          1 """"
        STATE False                           0
        STATE True                            1
    APPEND_ID_ITEM      application-process-identifier       11 UINT       0xA0 """"
    APPEND_ITEM         sequence-flags                        2 UINT            """"
        STATE continuation-packet-in-sequence 0
        STATE first-packet-in-sequence        1
        STATE last-packet-in-sequence         2
        STATE complete-packet                 3
    APPEND_ITEM         packet-sequence-count                14 UINT            """"
    APPEND_ITEM         packet-data-length                   16 UINT            ""length of the packet""
    APPEND_ITEM         seconds                              32 UINT            """"
        UNITS sec sec
    APPEND_ITEM         subsecs                              16 UINT            ""unit: 2**-16 sec = 0.015 ms""
    APPEND_ITEM         spare                                32 UINT            ""Spares""
    APPEND_ITEM         pos                                  64 FLOAT           """" LITTLE_ENDIAN
        LIMITS DEFAULT 5 ENABLED -1e-40 -1e-40 1e+40 1e+40
        UNITS m m
    APPEND_ITEM         vel                                  64 FLOAT           """" LITTLE_ENDIAN
        LIMITS DEFAULT 5 ENABLED -1e-40 -1e-40 1e+40 1e+40
        UNITS m/s m/s
    APPEND_ITEM         acc                                  64 FLOAT           """" LITTLE_ENDIAN
        LIMITS DEFAULT 5 ENABLED -1e-40 -1e-40 1e+40 1e+40
        UNITS m/s^2 m/s^2
    APPEND_ITEM         p                                    64 FLOAT           """" LITTLE_ENDIAN
        LIMITS DEFAULT 5 ENABLED -1e-40 -1e-40 1e+40 1e+40
    APPEND_ITEM         i                                    64 FLOAT           """" LITTLE_ENDIAN
        LIMITS DEFAULT 5 ENABLED -1e-40 -1e-40 1e+40 1e+40
    APPEND_ITEM         d                                    64 FLOAT           """" LITTLE_ENDIAN
        LIMITS DEFAULT 5 ENABLED -1e-40 -1e-40 1e+40 1e+40
    APPEND_ITEM         thrust                               64 FLOAT           """" LITTLE_ENDIAN
        LIMITS DEFAULT 5 ENABLED -1e-40 -1e-40 1e+40 1e+40
        UNITS N N
")] = true.
Proof. vm_compute. reflexivity. Qed.

(** tests/integration/generators/cosmos/04_driver_model_demo, run 2 *)
Example conformance_34 : produces (ArgsCosmos ["ccsds-headers.asn"; "cfe-headers.asn"; "gnc.asn"; "simple-types.asn"; "uart_driver.asn"] "uart-driver" "Uart-driver-uart0-read-tlm,Uart-driver-uart1-read-tlm" "uart_driver")
 [("ccsds-headers.asn", "Module-ccsds-headers DEFINITIONS AUTOMATIC TAGS ::= BEGIN -- CCSDS TM/TC headers

  IMPORTS Uint3, Uint11, Uint14, Uint8-t, Uint16-t, Uint32-t FROM Module-simple-types;

  Ccsds-primary-header ::= SEQUENCE { -- primary header
    packet-version-number Uint3,
    packet-identification Packet-identification,
    packet-sequence-control Packet-sequence-control,
    packet-data-length Uint16-t -- length of the packet
  }

  Packet-identification ::= SEQUENCE {
    packet-type-is-cmd BOOLEAN,
    sec-hdr-flag-is-present BOOLEAN,
    application-process-identifier Uint11
  }

  Packet-sequence-control ::= SEQUENCE {
    sequence-flags Sequence-flag,
    packet-sequence-count Uint14
  }

  Sequence-flag ::= ENUMERATED {
    continuation-packet-in-sequence (0),
    first-packet-in-sequence (1),
    last-packet-in-sequence (2),
    complete-packet(3)
  }

  Ccsds-extended-header ::= SEQUENCE {
    subsystem Uint16-t,
    system-id Uint16-t
  }

END
");
("cfe-headers.asn", "Module-cfe-headers DEFINITIONS AUTOMATIC TAGS ::= BEGIN -- cFE TM/TC headers

  IMPORTS Uint8-t, Uint16-t, Uint32-t FROM Module-simple-types
          Ccsds-primary-header FROM Module-ccsds-headers;

  Cfe-cmd-header ::= SEQUENCE {
    primary Ccsds-primary-header,
    secondary Cfe-tc-secondary-header
  }

  Cfe-tlm-header ::= SEQUENCE {
    primary Ccsds-primary-header,
    secondary Cfe-tm-secondary-header,
    spare Uint32-t  -- Spares
  }

  Cfe-tc-secondary-header ::= SEQUENCE {
    function-code Uint8-t,
    checksum Uint8-t
  }

  Cfe-tm-secondary-header ::= SEQUENCE {
    seconds Uint32-t, -- [sec]
    subsecs Uint16-t -- unit: 2**-16 sec = 0.015 ms
  }

END
");
("gnc.asn", "Module-gnc DEFINITIONS AUTOMATIC TAGS ::= BEGIN

  IMPORTS Cfe-tlm-header FROM Module-cfe-headers
          Real-range FROM Module-simple-types;

  Gnc-data-tlm ::= SEQUENCE { -- GNC_DATA_MID gnc_DataTlm_t (0x08A0)
      header Cfe-tlm-header (WITH COMPONENTS {
      primary (WITH COMPONENTS {
        packet-version-number (0),
        packet-identification (WITH COMPONENTS {
          packet-type-is-cmd (FALSE),
          sec-hdr-flag-is-present (TRUE),
          application-process-identifier (160)
        })
      })
    }),
    payload Payload-gnc-data-tlm
  }

  Payload-gnc-data-tlm ::= SEQUENCE {
    pos Real-range,   -- ENDIANNESS(LITTLE) [m]
    vel Real-range,   -- ENDIANNESS(LITTLE) [m/s]
    acc Real-range,   -- ENDIANNESS(LITTLE) [m/s^2]
    p Real-range,     -- ENDIANNESS(LITTLE)
    i Real-range,     -- ENDIANNESS(LITTLE)
    d Real-range,     -- ENDIANNESS(LITTLE)
    thrust Real-range -- ENDIANNESS(LITTLE) [N]
  }

END
");
("simple-types.asn", "Module-simple-types DEFINITIONS AUTOMATIC TAGS ::= BEGIN

  Real-range ::= REAL(-1.0e-40 .. +1.0e+40)

  Uint3 ::= INTEGER(0..7)
  Uint11 ::= INTEGER(0..2047)
  Uint14 ::= INTEGER(0..16383)

  Uint8-t ::= INTEGER(0..255)
  Uint16-t ::= INTEGER(0..65535)
  Uint32-t ::= INTEGER(0..4294967295)
  Uint64-t ::= INTEGER(0..18446744073709551615)

END
");
("uart_driver.asn", "Module-uart-driver DEFINITIONS AUTOMATIC TAGS ::= BEGIN

  IMPORTS Cfe-tlm-header FROM Module-cfe-headers
          Real-range FROM Module-simple-types;



  Uart-driver-uart0-read-tlm ::= SEQUENCE { -- UART_DRIVER_UART_0_READ_MID uart_driver_ReadTlm_t (0x08D0)
    header Cfe-tlm-header (WITH COMPONENTS {
      primary (WITH COMPONENTS {
        packet-version-number (0),
        packet-identification (WITH COMPONENTS {
          packet-type-is-cmd (FALSE),
          sec-hdr-flag-is-present (TRUE),
          application-process-identifier (208)
        })
      })
    }),
    payload Payload-uart-driver
  }

  Uart-driver-uart1-read-tlm ::= SEQUENCE { -- UART_DRIVER_UART_1_READ_MID uart_driver_ReadTlm_t (0x08D1)
    header Cfe-tlm-header (WITH COMPONENTS {
      primary (WITH COMPONENTS {
        packet-version-number (0),
        packet-identification (WITH COMPONENTS {
          packet-type-is-cmd (FALSE),
          sec-hdr-flag-is-present (TRUE),
          application-process-identifier (209)
        })
      })
    }),
    payload Payload-uart-driver
  }



  Payload-uart-driver ::= SEQUENCE {
    raw Real-range -- [m] TODO String
  }

END
")]
 [("uart_driver.txt", "# This file was autogenerated from ASN.1 model.

TELEMETRY uart_driver Uart-driver-uart0-read-tlm BIG_ENDIAN ""UART_DRIVER_UART_0_READ_MID uart_driver_ReadTlm_t (0x08D0)""
    APPEND_ID_ITEM      packet-version-number                 3 UINT          0 """"
    APPEND_ID_ITEM      packet-type-is-cmd                    1 UINT          0 """"
        STATE False                           0
        STATE True                            1
    APPEND_ID_ITEM      sec-hdr-flag-is-present               1 UINT          1 """"
        STATE False                           0
        STATE True                            1
    APPEND_ID_ITEM      application-process-identifier       11 UINT       0xD0 """"
    APPEND_ITEM         sequence-flags                        2 UINT            """"
        STATE continuation-packet-in-sequence 0
        STATE first-packet-in-sequence        1
        STATE last-packet-in-sequence         2
        STATE complete-packet                 3
    APPEND_ITEM         packet-sequence-count                14 UINT            """"
    APPEND_ITEM         packet-data-length                   16 UINT            ""length of the packet""
    APPEND_ITEM         seconds                              32 UINT            """"
        UNITS sec sec
    APPEND_ITEM         subsecs                              16 UINT            ""unit: 2**-16 sec = 0.015 ms""
    APPEND_ITEM         spare                                32 UINT            ""Spares""
    APPEND_ITEM         raw                                  64 FLOAT           ""TODO String""
        LIMITS DEFAULT 5 ENABLED -1e-40 -1e-40 1e+40 1e+40
        UNITS m m

TELEMETRY uart_driver Uart-driver-uart1-read-tlm BIG_ENDIAN ""UART_DRIVER_UART_1_READ_MID uart_driver_ReadTlm_t (0x08D1)""
    APPEND_ID_ITEM      packet-version-number                 3 UINT          0 """"
    APPEND_ID_ITEM      packet-type-is-cmd                    1 UINT          0 """"
        STATE False                           0
        STATE True                            1
    APPEND_ID_ITEM      sec-hdr-flag-is-present               1 UINT          1 """"
        STATE False                           0
        STATE True                            1
    APPEND_ID_ITEM      application-process-identifier       11 UINT       0xD1 """"
    APPEND_ITEM         sequence-flags                        2 UINT            """"
        STATE continuation-packet-in-sequence 0
        STATE first-packet-in-sequence        1
        STATE last-packet-in-sequence         2
        STATE complete-packet                 3
    APPEND_ITEM         packet-sequence-count                14 UINT            """"
    APPEND_ITEM         packet-data-length                   16 UINT            ""length of the packet""
    APPEND_ITEM         seconds                              32 UINT            """"
        UNITS sec sec
    APPEND_ITEM         subsecs                              16 UINT            ""unit: 2**-16 sec = 0.015 ms""
    APPEND_ITEM         spare                                32 UINT            ""Spares""
    APPEND_ITEM         raw                                  64 FLOAT           ""TODO String""
        LIMITS DEFAULT 5 ENABLED -1e-40 -1e-40 1e+40 1e+40
        UNITS m m
")] = true.
Proof. vm_compute. reflexivity. Qed.

(** tests/integration/generators/cosmos/05_struct_with_one_real_number *)
Example conformance_35 : produces (ArgsCosmos ["sample.asn"] "sample-module" "Sample-packet" "sample_module_msg")
 [("sample.asn", "Module-sample-module DEFINITIONS AUTOMATIC TAGS ::= BEGIN

  Sample-packet ::= SEQUENCE {
    number REAL(0.0 .. 1000.3)
  }

END
")]
 [("sample_module_msg.txt", "# This file was autogenerated from ASN.1 model.

TELEMETRY sample_module_msg Sample-packet BIG_ENDIAN """"
    APPEND_ITEM         number                               32 FLOAT           """"
        LIMITS DEFAULT 5 ENABLED 0.0 0.0 1000.3 1000.3
")] = true.
Proof. vm_compute. reflexivity. Qed.

(** tests/integration/generators/cosmos/06_transitive_dependencies *)
Example conformance_36 : produces (ArgsCosmos ["a.asn"; "b.asn"; "c.asn"] "c-module" "C-packet" "c_module_msg")
 [("a.asn", "Module-a-module DEFINITIONS AUTOMATIC TAGS ::= BEGIN

  A-type ::= SEQUENCE {
    a-name INTEGER(0..255)
  }

END
");
("b.asn", "Module-b-module DEFINITIONS AUTOMATIC TAGS ::= BEGIN

  IMPORTS A-type FROM Module-a-module;

  B-type ::= SEQUENCE {
    b-name A-type
  }

END
");
("c.asn", "Module-c-module DEFINITIONS AUTOMATIC TAGS ::= BEGIN

  IMPORTS B-type FROM Module-b-module;

  C-packet ::= SEQUENCE {
    c-name B-type (WITH COMPONENTS {
        b-name (WITH COMPONENTS {
            a-name (0)
        })
    })
  }

END
")]
 [("c_module_msg.txt", "# This file was autogenerated from ASN.1 model.

TELEMETRY c_module_msg C-packet BIG_ENDIAN """"
    APPEND_ID_ITEM      a-name                                8 UINT          0 """"
")] = true.
Proof. vm_compute. reflexivity. Qed.

(** tests/integration/asn1/validation/01_duplicate_module_in_bundle *)
Example conformance_37 : fails_with ConsistencyError (ArgsCfs ["module_a.asn"; "module_b.asn"; "module_b.asn"] "module-a,module-b")
 [("module_a.asn", "Module-module-a DEFINITIONS AUTOMATIC TAGS ::= BEGIN

  Module-a-type ::= INTEGER(0..65535)

END");
("module_b.asn", "Module-module-b DEFINITIONS AUTOMATIC TAGS ::= BEGIN

  Module-b-type ::= INTEGER(0..65535)

END")] = true.
Proof. vm_compute. reflexivity. Qed.

(** tests/integration/asn1/validation/02_prevents_null_type_in_simple_definition *)
Example conformance_38 : fails_with ConsistencyError (ArgsCfs ["module.asn"] "module")
 [("module.asn", "Module-module DEFINITIONS AUTOMATIC TAGS ::= BEGIN

  Module-a-type ::= NULL

END")] = true.
Proof. vm_compute. reflexivity. Qed.

(** tests/integration/asn1/validation/03_prevents_null_type_in_keytypepair *)
Example conformance_39 : fails_with ConsistencyError (ArgsCfs ["module.asn"] "module")
 [("module.asn", "Module-module DEFINITIONS AUTOMATIC TAGS ::= BEGIN

  Cfe-cmd-header ::= SEQUENCE {
    primary NULL
  }

END")] = true.
Proof. vm_compute. reflexivity. Qed.

(** tests/integration/asn1/validation/04_module_in_bundle_not_found_in_arguments *)
Example conformance_40 : fails_with ConsistencyError (ArgsCfs ["module_a.asn"; "module_b.asn"] "module-a")
 [("module_a.asn", "Module-module-a DEFINITIONS AUTOMATIC TAGS ::= BEGIN

  Module-a-type ::= INTEGER(0..65535)

END");
("module_b.asn", "Module-module-b DEFINITIONS AUTOMATIC TAGS ::= BEGIN

  Module-b-type ::= INTEGER(0..65535)

END")] = true.
Proof. vm_compute. reflexivity. Qed.

(** tests/integration/asn1/validation/05_duplicate_definition_names_in_module *)
Example conformance_41 : fails_with ConsistencyError (ArgsCfs ["module.asn"] "module")
 [("module.asn", "Module-module DEFINITIONS AUTOMATIC TAGS ::= BEGIN

  Example-type ::= INTEGER(0..7)

  Example-type ::= BOOLEAN

END")] = true.
Proof. vm_compute. reflexivity. Qed.

(** tests/integration/asn1/validation/06_duplicate_definition_names_in_project *)
Example conformance_42 : fails_with ConsistencyError (ArgsCfs ["module-a.asn"; "module-b.asn"] "module-a,module-b")
 [("module-a.asn", "Module-module-a DEFINITIONS AUTOMATIC TAGS ::= BEGIN

  IMPORTS Example-type FROM Module-module-b;

  Example-type ::= BOOLEAN

END");
("module-b.asn", "Module-module-b DEFINITIONS AUTOMATIC TAGS ::= BEGIN

  Example-type ::= INTEGER(0..7)

END")] = true.
Proof. vm_compute. reflexivity. Qed.

(** tests/integration/asn1/validation/07_module_in_arguments_not_found_in_bundle *)
Example conformance_43 : fails_with ConsistencyError (ArgsCfs ["module_a.asn"] "module-a,module-b")
 [("module_a.asn", "Module-module-a DEFINITIONS AUTOMATIC TAGS ::= BEGIN

  Module-a-type ::= INTEGER(0..65535)

END")] = true.
Proof. vm_compute. reflexivity. Qed.

(** tests/integration/asn1/validation/08_duplicate_module_in_command_line_arguments *)
Example conformance_44 : fails_with ConsistencyError (ArgsCfs ["module_a.asn"; "module_b.asn"] "module-a,module-b,module-b")
 [("module_a.asn", "Module-module-a DEFINITIONS AUTOMATIC TAGS ::= BEGIN

  Module-a-type ::= INTEGER(0..65535)

END");
("module_b.asn", "Module-module-b DEFINITIONS AUTOMATIC TAGS ::= BEGIN

  Module-b-type ::= INTEGER(0..65535)

END")] = true.
Proof. vm_compute. reflexivity. Qed.

(** tests/unit/asn1_parser/asn1/validation/test_multi_sequence_invalid.py, test_sequence_import_with_components_component_not_found *)
Example unit_1 : build_from_texts ["Module-sandbox-hk-pc DEFINITIONS AUTOMATIC TAGS ::= BEGIN

  IMPORTS Ccsds-primary-header, Secondary-header FROM Module-tmtc-header;

  Uint64-t ::= INTEGER(0..18446744073709551615) -- 64 bit

  Percent ::= REAL(0.00 .. 100.00) -- [%] 0.00% to 100.00%
  Load ::= REAL(0.00 .. 30.00) -- TODO: check range not to big

  Sandbox-hk-pc-t ::= SEQUENCE {
    primary-header Ccsds-primary-header -- 0x0899
      (WITH COMPONENTS {
        packet-version-number (0),
        packet-identification (WITH COMPONENTS {
          packet-type-is-cmd (FALSE),
          sec-hdr-flag-is-present (TRUE),
          application-process-identifier (153)
        })
      }),
    secondary-header Secondary-header,
    payload Payload-sandbox-hk-pc-t
  }

  Payload-sandbox-hk-pc-t ::= SEQUENCE {
    cpu Percent,
    load1 Load,
    load5 Load,
    load15 Load,
    total-ram Uint64-t, -- [byte]
    free-ram Uint64-t, -- [byte]
    free-swap Uint64-t -- [byte]
  }

END
";
"Module-tmtc-header DEFINITIONS AUTOMATIC TAGS ::= BEGIN -- CCSDS TM/TC header

  Uint16-t ::= INTEGER(0..65535) -- 16 bit, 0x0000 to 0xFFFF
  Uint32-t ::= INTEGER(0..4294967295) -- 32 bit, 0x00000000 to 0xFFFFFFFF

  Ccsds-primary-header ::= SEQUENCE { -- primary header
    packet-identification Packet-identification,
    packet-sequence-control Packet-sequence-control,
    packet-data-length Uint16-t
  }

  Packet-identification ::= SEQUENCE {
    packet-type-is-cmd BOOLEAN, -- 1: cmd, 0: tlm
    sec-hdr-flag-is-present BOOLEAN, -- 1: present, 0: absent
    application-process-identifier INTEGER(0..2047) -- 11 bit, 0b00000000000 to 0b11111111111
  }

  Packet-sequence-control ::= SEQUENCE {
    sequence-flags Sequence-flag,
    packet-sequence-count INTEGER(0..16383) -- 14 bit, 0b00000000000000 to 0b11111111111111
  }

  Sequence-flag ::= ENUMERATED { -- 2 bit, 0b00 to 0b11
    continuation-packet-in-sequence (0),
    first-packet-in-sequence (1),
    last-packet-in-sequence (2),
    complete-packet(3)
  }

  Secondary-header ::= SEQUENCE {
    seconds Uint32-t,
    subsecs Uint16-t
  }

END
"] = Err ConsistencyError.
Proof. vm_compute. reflexivity. Qed.

(** tests/unit/asn1_parser/asn1/validation/test_multi_sequence_invalid.py, test_sequence_import_with_components_sub_component_not_found *)
Example unit_2 : build_from_texts ["Module-sandbox-hk-pc DEFINITIONS AUTOMATIC TAGS ::= BEGIN

  IMPORTS Ccsds-primary-header, Secondary-header FROM Module-tmtc-header;

  Uint64-t ::= INTEGER(0..18446744073709551615) -- 64 bit

  Percent ::= REAL(0.00 .. 100.00) -- [%] 0.00% to 100.00%
  Load ::= REAL(0.00 .. 30.00) -- TODO: check range not to big

  Sandbox-hk-pc-t ::= SEQUENCE {
    primary-header Ccsds-primary-header -- 0x0899
      (WITH COMPONENTS {
        packet-version-number (0),
        packet-identification (WITH COMPONENTS {
          packet-type-is-cmd (FALSE),
          sec-hdr-flag-is-present (TRUE),
          application-process-identifier (153)
        })
      }),
    secondary-header Secondary-header,
    payload Payload-sandbox-hk-pc-t
  }

  Payload-sandbox-hk-pc-t ::= SEQUENCE {
    cpu Percent,
    load1 Load,
    load5 Load,
    load15 Load,
    total-ram Uint64-t, -- [byte]
    free-ram Uint64-t, -- [byte]
    free-swap Uint64-t -- [byte]
  }

END
";
"Module-tmtc-header DEFINITIONS AUTOMATIC TAGS ::= BEGIN -- CCSDS TM/TC header

  Uint16-t ::= INTEGER(0..65535) -- 16 bit, 0x0000 to 0xFFFF
  Uint32-t ::= INTEGER(0..4294967295) -- 32 bit, 0x00000000 to 0xFFFFFFFF

  Ccsds-primary-header ::= SEQUENCE { -- primary header
    packet-version-number INTEGER(0..7), -- 3bit, 0b000 to 0b111
    packet-identification Packet-identification,
    packet-sequence-control Packet-sequence-control,
    packet-data-length Uint16-t
  }

  Packet-identification ::= SEQUENCE {
    sec-hdr-flag-is-present BOOLEAN, -- 1: present, 0: absent
    application-process-identifier INTEGER(0..2047) -- 11 bit, 0b00000000000 to 0b11111111111
  }

  Packet-sequence-control ::= SEQUENCE {
    sequence-flags Sequence-flag,
    packet-sequence-count INTEGER(0..16383) -- 14 bit, 0b00000000000000 to 0b11111111111111
  }

  Sequence-flag ::= ENUMERATED { -- 2 bit, 0b00 to 0b11
    continuation-packet-in-sequence (0),
    first-packet-in-sequence (1),
    last-packet-in-sequence (2),
    complete-packet(3)
  }

  Secondary-header ::= SEQUENCE {
    seconds Uint32-t,
    subsecs Uint16-t
  }

END
"] = Err ConsistencyError.
Proof. vm_compute. reflexivity. Qed.

(** tests/unit/asn1_parser/asn1/validation/test_type_consistency.py, test_posix_ranges *)
Example unit_3 : parse_single_text "Module-test-module DEFINITIONS AUTOMATIC TAGS ::= BEGIN

  Uint8-t ::= INTEGER(0..300)
  Uint16-t ::= INTEGER(0..300)

  Test-seq ::= SEQUENCE {
    field1 Uint8-t,
    field2 Uint16-t
  }
END
" = Err ConsistencyError.
Proof. vm_compute. reflexivity. Qed.

(** tests/unit/multi_module/test_multi_comments.py, test_module_begin_comment *)
Example unit_4 : accepts (parse_texts ["Module-test-module-begin-comment-1 DEFINITIONS AUTOMATIC TAGS ::= BEGIN -- test comment
    Enum-t ::= ENUMERATED {
        carrot,
        apple
    }
END
";
"Module-test-module-begin-comment-2 DEFINITIONS AUTOMATIC TAGS ::= BEGIN -- test comment
    Enum-t ::= ENUMERATED {
        carrot,
        apple
    }
END
"]) = true.
Proof. vm_compute. reflexivity. Qed.

(** tests/unit/multi_module/test_multi_comments.py, test_module_begin_comment_unit_only *)
Example unit_5 : accepts (parse_texts ["Module-test-module-begin-comment-unit-only-1 DEFINITIONS AUTOMATIC TAGS ::= BEGIN -- [min]
    Enum-t ::= ENUMERATED {
        carrot,
        apple
    }
END
";
"Module-test-module-begin-comment-unit-only-2 DEFINITIONS AUTOMATIC TAGS ::= BEGIN -- [min]
    Enum-t ::= ENUMERATED {
        carrot,
        apple
    }
END
"]) = true.
Proof. vm_compute. reflexivity. Qed.

(** tests/unit/multi_module/test_multi_comments.py, test_module_begin_comment_and_unit *)
Example unit_6 : accepts (parse_texts ["Module-test-module-begin-comment-and-unit-1 DEFINITIONS AUTOMATIC TAGS ::= BEGIN -- [min] test comment
    Enum-t ::= ENUMERATED {
        carrot,
        apple
    }
END
";
"Module-test-module-begin-comment-and-unit-2 DEFINITIONS AUTOMATIC TAGS ::= BEGIN -- [min] test comment
    Enum-t ::= ENUMERATED {
        carrot,
        apple
    }
END
"]) = true.
Proof. vm_compute. reflexivity. Qed.

(** tests/unit/multi_module/test_multi_comments.py, test_enumerated_comment *)
Example unit_7 : accepts (parse_texts ["Module-test-enumerated-comment-1 DEFINITIONS AUTOMATIC TAGS ::= BEGIN
    Enum-t ::= ENUMERATED { -- test comment
        carrot,
        apple
    }
END
";
"Module-test-enumerated-comment-2 DEFINITIONS AUTOMATIC TAGS ::= BEGIN
    Enum-t ::= ENUMERATED { -- test comment
        carrot,
        apple
    }
END
"]) = true.
Proof. vm_compute. reflexivity. Qed.

(** tests/unit/multi_module/test_multi_comments.py, test_enumerated_item_comment_last_entry *)
Example unit_8 : accepts (parse_texts ["Module-test-enumerated-item-comment-last-entry-1 DEFINITIONS AUTOMATIC TAGS ::= BEGIN
    Enum-t ::= ENUMERATED {
        carrot,
        apple -- test comment
    }
END
";
"Module-test-enumerated-item-comment-last-entry-2 DEFINITIONS AUTOMATIC TAGS ::= BEGIN
    Enum-t ::= ENUMERATED {
        carrot,
        apple -- test comment
    }
END
"]) = true.
Proof. vm_compute. reflexivity. Qed.

(** tests/unit/multi_module/test_multi_comments.py, test_enumerated_item_comment_entry *)
Example unit_9 : accepts (parse_texts ["Module-test-enumerated-item-comment-entry-1 DEFINITIONS AUTOMATIC TAGS ::= BEGIN
    Enum-t ::= ENUMERATED {
        carrot, -- test comment
        apple
    }
END
";
"Module-test-enumerated-item-comment-entry-2 DEFINITIONS AUTOMATIC TAGS ::= BEGIN
    Enum-t ::= ENUMERATED {
        carrot, -- test comment
        apple
    }
END
"]) = true.
Proof. vm_compute. reflexivity. Qed.

(** tests/unit/multi_module/test_multi_comments.py, test_enumerated_comment_unit_only *)
Example unit_10 : accepts (parse_texts ["Module-test-enumerated-comment-unit-only-1 DEFINITIONS AUTOMATIC TAGS ::= BEGIN
    Enum-t ::= ENUMERATED { -- [min]
        carrot,
        apple
    }
END
";
"Module-test-enumerated-comment-unit-only-2 DEFINITIONS AUTOMATIC TAGS ::= BEGIN
    Enum-t ::= ENUMERATED { -- [min]
        carrot,
        apple
    }
END
"]) = true.
Proof. vm_compute. reflexivity. Qed.

(** tests/unit/multi_module/test_multi_comments.py, test_enumerated_item_comment_last_entry_unit_only *)
Example unit_11 : accepts (parse_texts ["Module-test-enumerated-item-comment-last-entry-unit-only-1 DEFINITIONS AUTOMATIC TAGS ::= BEGIN
    Enum-t ::= ENUMERATED {
        carrot,
        apple -- [min]
    }
END
";
"Module-test-enumerated-item-comment-last-entry-unit-only-2 DEFINITIONS AUTOMATIC TAGS ::= BEGIN
    Enum-t ::= ENUMERATED {
        carrot,
        apple -- [min]
    }
END
"]) = true.
Proof. vm_compute. reflexivity. Qed.

(** tests/unit/multi_module/test_multi_comments.py, test_enumerated_item_comment_entry_unit_only *)
Example unit_12 : accepts (parse_texts ["Module-test-enumerated-item-comment-entry-unit-only-1 DEFINITIONS AUTOMATIC TAGS ::= BEGIN
    Enum-t ::= ENUMERATED {
        carrot, -- [min]
        apple
    }
END
";
"Module-test-enumerated-item-comment-entry-unit-only-2 DEFINITIONS AUTOMATIC TAGS ::= BEGIN
    Enum-t ::= ENUMERATED {
        carrot, -- [min]
        apple
    }
END
"]) = true.
Proof. vm_compute. reflexivity. Qed.

(** tests/unit/multi_module/test_multi_comments.py, test_enumerated_comment_and_unit *)
Example unit_13 : accepts (parse_texts ["Module-test-enumerated-comment-and-unit-1 DEFINITIONS AUTOMATIC TAGS ::= BEGIN
    Enum-t ::= ENUMERATED { -- [min] test comment
        carrot,
        apple
    }
END
";
"Module-test-enumerated-comment-and-unit-2 DEFINITIONS AUTOMATIC TAGS ::= BEGIN
    Enum-t ::= ENUMERATED { -- [min] test comment
        carrot,
        apple
    }
END
"]) = true.
Proof. vm_compute. reflexivity. Qed.

(** tests/unit/multi_module/test_multi_comments.py, test_enumerated_item_comment_last_entry_and_unit *)
Example unit_14 : accepts (parse_texts ["Module-test-enumerated-item-comment-last-entry-and-unit-1 DEFINITIONS AUTOMATIC TAGS ::= BEGIN
    Enum-t ::= ENUMERATED {
        carrot,
        apple -- [min] test comment
    }
END
";
"Module-test-enumerated-item-comment-last-entry-and-unit-2 DEFINITIONS AUTOMATIC TAGS ::= BEGIN
    Enum-t ::= ENUMERATED {
        carrot,
        apple -- [min] test comment
    }
END
"]) = true.
Proof. vm_compute. reflexivity. Qed.

(** tests/unit/multi_module/test_multi_comments.py, test_enumerated_item_comment_entry_and_unit *)
Example unit_15 : accepts (parse_texts ["Module-test-enumerated-item-comment-entry-and-unit-1 DEFINITIONS AUTOMATIC TAGS ::= BEGIN
    Enum-t ::= ENUMERATED {
        carrot, -- [min] test comment
        apple
    }
END
";
"Module-test-enumerated-item-comment-entry-and-unit-2 DEFINITIONS AUTOMATIC TAGS ::= BEGIN
    Enum-t ::= ENUMERATED {
        carrot, -- [min] test comment
        apple
    }
END
"]) = true.
Proof. vm_compute. reflexivity. Qed.

(** tests/unit/multi_module/test_multi_comments.py, test_choice_comment *)
Example unit_16 : accepts (parse_texts ["Module-test-choice-comment-1 DEFINITIONS AUTOMATIC TAGS ::= BEGIN
    Choice-t ::= CHOICE { -- test comment
        carrot INTEGER(0..255),
        apple INTEGER(0..255)
    }
END
";
"Module-test-choice-comment-2 DEFINITIONS AUTOMATIC TAGS ::= BEGIN
    Choice-t ::= CHOICE { -- test comment
        carrot INTEGER(0..255),
        apple INTEGER(0..255)
    }
END
"]) = true.
Proof. vm_compute. reflexivity. Qed.

(** tests/unit/multi_module/test_multi_comments.py, test_choice_item_comment_last_entry *)
Example unit_17 : accepts (parse_texts ["Module-test-choice-item-comment-last-entry-1 DEFINITIONS AUTOMATIC TAGS ::= BEGIN
    Choice-t ::= CHOICE {
        carrot INTEGER(0..255),
        apple INTEGER(0..255) -- test comment
    }
END
";
"Module-test-choice-item-comment-last-entry-2 DEFINITIONS AUTOMATIC TAGS ::= BEGIN
    Choice-t ::= CHOICE {
        carrot INTEGER(0..255),
        apple INTEGER(0..255) -- test comment
    }
END
"]) = true.
Proof. vm_compute. reflexivity. Qed.

(** tests/unit/multi_module/test_multi_comments.py, test_choice_item_comment_entry *)
Example unit_18 : accepts (parse_texts ["Module-test-choice-item-comment-entry-1 DEFINITIONS AUTOMATIC TAGS ::= BEGIN
    Choice-t ::= CHOICE {
        carrot INTEGER(0..255), -- test comment
        apple INTEGER(0..255)
    }
END
";
"Module-test-choice-item-comment-entry-2 DEFINITIONS AUTOMATIC TAGS ::= BEGIN
    Choice-t ::= CHOICE {
        carrot INTEGER(0..255), -- test comment
        apple INTEGER(0..255)
    }
END
"]) = true.
Proof. vm_compute. reflexivity. Qed.

(** tests/unit/multi_module/test_multi_comments.py, test_choice_comment_unit_only *)
Example unit_19 : accepts (parse_texts ["Module-test-choice-comment-unit-only-1 DEFINITIONS AUTOMATIC TAGS ::= BEGIN
    Choice-t ::= CHOICE { -- [min]
        carrot INTEGER(0..255),
        apple INTEGER(0..255)
    }
END
";
"Module-test-choice-comment-unit-only-2 DEFINITIONS AUTOMATIC TAGS ::= BEGIN
    Choice-t ::= CHOICE { -- [min]
        carrot INTEGER(0..255),
        apple INTEGER(0..255)
    }
END
"]) = true.
Proof. vm_compute. reflexivity. Qed.

(** tests/unit/multi_module/test_multi_comments.py, test_choice_item_comment_last_entry_unit_only *)
Example unit_20 : accepts (parse_texts ["Module-test-choice-item-comment-last-entry-unit-only-1 DEFINITIONS AUTOMATIC TAGS ::= BEGIN
    Choice-t ::= CHOICE {
        carrot INTEGER(0..255),
        apple INTEGER(0..255) -- [min]
    }
END
";
"Module-test-choice-item-comment-last-entry-unit-only-2 DEFINITIONS AUTOMATIC TAGS ::= BEGIN
    Choice-t ::= CHOICE {
        carrot INTEGER(0..255),
        apple INTEGER(0..255) -- [min]
    }
END
"]) = true.
Proof. vm_compute. reflexivity. Qed.

(** tests/unit/multi_module/test_multi_comments.py, test_choice_item_comment_entry_unit_only *)
Example unit_21 : accepts (parse_texts ["Module-test-choice-item-comment-entry-unit-only-1 DEFINITIONS AUTOMATIC TAGS ::= BEGIN
    Choice-t ::= CHOICE {
        carrot INTEGER(0..255), -- [min]
        apple INTEGER(0..255)
    }
END
";
"Module-test-choice-item-comment-entry-unit-only-2 DEFINITIONS AUTOMATIC TAGS ::= BEGIN
    Choice-t ::= CHOICE {
        carrot INTEGER(0..255), -- [min]
        apple INTEGER(0..255)
    }
END
"]) = true.
Proof. vm_compute. reflexivity. Qed.

(** tests/unit/multi_module/test_multi_comments.py, test_choice_comment_and_unit *)
Example unit_22 : accepts (parse_texts ["Module-test-choice-comment-and-unit-1 DEFINITIONS AUTOMATIC TAGS ::= BEGIN
    Choice-t ::= CHOICE { -- [min] test comment
        carrot INTEGER(0..255),
        apple INTEGER(0..255)
    }
END
";
"Module-test-choice-comment-and-unit-2 DEFINITIONS AUTOMATIC TAGS ::= BEGIN
    Choice-t ::= CHOICE { -- [min] test comment
        carrot INTEGER(0..255),
        apple INTEGER(0..255)
    }
END
"]) = true.
Proof. vm_compute. reflexivity. Qed.

(** tests/unit/multi_module/test_multi_comments.py, test_choice_item_comment_last_entry_and_unit *)
Example unit_23 : accepts (parse_texts ["Module-test-choice-item-comment-last-entry-and-unit-1 DEFINITIONS AUTOMATIC TAGS ::= BEGIN
    Choice-t ::= CHOICE {
        carrot INTEGER(0..255),
        apple INTEGER(0..255) -- [min] test comment
    }
END
";
"Module-test-choice-item-comment-last-entry-and-unit-2 DEFINITIONS AUTOMATIC TAGS ::= BEGIN
    Choice-t ::= CHOICE {
        carrot INTEGER(0..255),
        apple INTEGER(0..255) -- [min] test comment
    }
END
"]) = true.
Proof. vm_compute. reflexivity. Qed.

(** tests/unit/multi_module/test_multi_comments.py, test_choice_item_comment_entry_and_unit *)
Example unit_24 : accepts (parse_texts ["Module-test-choice-item-comment-entry-and-unit-1 DEFINITIONS AUTOMATIC TAGS ::= BEGIN
    Choice-t ::= CHOICE {
        carrot INTEGER(0..255), -- [min] test comment
        apple INTEGER(0..255)
    }
END
";
"Module-test-choice-item-comment-entry-and-unit-2 DEFINITIONS AUTOMATIC TAGS ::= BEGIN
    Choice-t ::= CHOICE {
        carrot INTEGER(0..255), -- [min] test comment
        apple INTEGER(0..255)
    }
END
"]) = true.
Proof. vm_compute. reflexivity. Qed.

(** tests/unit/multi_module/test_multi_comments.py, test_sequence_comment_simple *)
Example unit_25 : accepts (parse_texts ["Module-test-sequence-comment-1 DEFINITIONS AUTOMATIC TAGS ::= BEGIN
    Seq ::= SEQUENCE { -- test comment
        carrot INTEGER(0..255),
        apple INTEGER(0..255)
    }
END
";
"Module-test-sequence-comment-2 DEFINITIONS AUTOMATIC TAGS ::= BEGIN
    Seq ::= SEQUENCE { -- test comment
        carrot INTEGER(0..255),
        apple INTEGER(0..255)
    }
END
"]) = true.
Proof. vm_compute. reflexivity. Qed.

(** tests/unit/multi_module/test_multi_comments.py, test_sequence_item_comment_last_entry *)
Example unit_26 : accepts (parse_texts ["Module-test-sequence-comment-last-entry-1 DEFINITIONS AUTOMATIC TAGS ::= BEGIN
    Seq ::= SEQUENCE {
        carrot INTEGER(0..255),
        apple INTEGER(0..255) -- test comment
    }
END
";
"Module-test-sequence-comment-last-entry-2 DEFINITIONS AUTOMATIC TAGS ::= BEGIN
    Seq ::= SEQUENCE {
        carrot INTEGER(0..255),
        apple INTEGER(0..255) -- test comment
    }
END
"]) = true.
Proof. vm_compute. reflexivity. Qed.

(** tests/unit/multi_module/test_multi_comments.py, test_sequence_item_comment_entry *)
Example unit_27 : accepts (parse_texts ["Module-test-sequence-comment-entry-1 DEFINITIONS AUTOMATIC TAGS ::= BEGIN
    Seq ::= SEQUENCE {
        carrot INTEGER(0..255), -- test comment
        apple INTEGER(0..255)
    }
END
";
"Module-test-sequence-comment-entry-2 DEFINITIONS AUTOMATIC TAGS ::= BEGIN
    Seq ::= SEQUENCE {
        carrot INTEGER(0..255), -- test comment
        apple INTEGER(0..255)
    }
END
"]) = true.
Proof. vm_compute. reflexivity. Qed.

(** tests/unit/multi_module/test_multi_comments.py, test_sequence_comment_unit_only *)
Example unit_28 : accepts (parse_texts ["Module-test-sequence-comment-unit-only-1 DEFINITIONS AUTOMATIC TAGS ::= BEGIN
    Seq ::= SEQUENCE { -- [min]
        carrot INTEGER(0..255),
        apple INTEGER(0..255)
    }
END
";
"Module-test-sequence-comment-unit-only-2 DEFINITIONS AUTOMATIC TAGS ::= BEGIN
    Seq ::= SEQUENCE { -- [min]
        carrot INTEGER(0..255),
        apple INTEGER(0..255)
    }
END
"]) = true.
Proof. vm_compute. reflexivity. Qed.

(** tests/unit/multi_module/test_multi_comments.py, test_sequence_item_comment_last_entry_unit_only *)
Example unit_29 : accepts (parse_texts ["Module-test-sequence-comment-last-entry-unit-only-1 DEFINITIONS AUTOMATIC TAGS ::= BEGIN
    Seq ::= SEQUENCE {
        carrot INTEGER(0..255),
        apple INTEGER(0..255) -- [min]
    }
END
";
"Module-test-sequence-comment-last-entry-unit-only-2 DEFINITIONS AUTOMATIC TAGS ::= BEGIN
    Seq ::= SEQUENCE {
        carrot INTEGER(0..255),
        apple INTEGER(0..255) -- [min]
    }
END
"]) = true.
Proof. vm_compute. reflexivity. Qed.

(** tests/unit/multi_module/test_multi_comments.py, test_sequence_item_comment_entry_unit_only *)
Example unit_30 : accepts (parse_texts ["Module-test-sequence-comment-entry-unit-only-1 DEFINITIONS AUTOMATIC TAGS ::= BEGIN
    Seq ::= SEQUENCE {
        carrot INTEGER(0..255), -- [min]
        apple INTEGER(0..255)
    }
END
";
"Module-test-sequence-comment-entry-unit-only-2 DEFINITIONS AUTOMATIC TAGS ::= BEGIN
    Seq ::= SEQUENCE {
        carrot INTEGER(0..255), -- [min]
        apple INTEGER(0..255)
    }
END
"]) = true.
Proof. vm_compute. reflexivity. Qed.

(** tests/unit/multi_module/test_multi_comments.py, test_sequence_comment_and_unit *)
Example unit_31 : accepts (parse_texts ["Module-test-sequence-comment-and-unit-1 DEFINITIONS AUTOMATIC TAGS ::= BEGIN
    Seq ::= SEQUENCE { -- [min] test comment
        carrot INTEGER(0..255),
        apple INTEGER(0..255)
    }
END
";
"Module-test-sequence-comment-and-unit-2 DEFINITIONS AUTOMATIC TAGS ::= BEGIN
    Seq ::= SEQUENCE { -- [min] test comment
        carrot INTEGER(0..255),
        apple INTEGER(0..255)
    }
END
"]) = true.
Proof. vm_compute. reflexivity. Qed.

(** tests/unit/multi_module/test_multi_comments.py, test_sequence_item_comment_last_entry_and_unit *)
Example unit_32 : accepts (parse_texts ["Module-test-sequence-comment-last-entry-and-unit-1 DEFINITIONS AUTOMATIC TAGS ::= BEGIN
    Seq ::= SEQUENCE {
        carrot INTEGER(0..255),
        apple INTEGER(0..255) -- [min] test comment
    }
END
";
"Module-test-sequence-comment-last-entry-and-unit-2 DEFINITIONS AUTOMATIC TAGS ::= BEGIN
    Seq ::= SEQUENCE {
        carrot INTEGER(0..255),
        apple INTEGER(0..255) -- [min] test comment
    }
END
"]) = true.
Proof. vm_compute. reflexivity. Qed.

(** tests/unit/multi_module/test_multi_comments.py, test_sequence_item_comment_entry_and_unit *)
Example unit_33 : accepts (parse_texts ["Module-test-sequence-comment-entry-and-unit-1 DEFINITIONS AUTOMATIC TAGS ::= BEGIN
    Seq ::= SEQUENCE {
        carrot INTEGER(0..255), -- [min] test comment
        apple INTEGER(0..255)
    }
END
";
"Module-test-sequence-comment-entry-and-unit-2 DEFINITIONS AUTOMATIC TAGS ::= BEGIN
    Seq ::= SEQUENCE {
        carrot INTEGER(0..255), -- [min] test comment
        apple INTEGER(0..255)
    }
END
"]) = true.
Proof. vm_compute. reflexivity. Qed.

(** tests/unit/multi_module/test_multi_comments.py, test_simple_definition_comment *)
Example unit_34 : accepts (parse_texts ["Module-test-simple-definition-comment-1 DEFINITIONS AUTOMATIC TAGS ::= BEGIN
    Uint16-t ::= INTEGER(0..65535) -- test comment
END
";
"Module-test-simple-definition-comment-2 DEFINITIONS AUTOMATIC TAGS ::= BEGIN
    Uint16-t ::= INTEGER(0..65535) -- test comment
END
"]) = true.
Proof. vm_compute. reflexivity. Qed.

(** tests/unit/multi_module/test_multi_comments.py, test_simple_definition_comment_unit_only *)
Example unit_35 : accepts (parse_texts ["Module-test-simple-definition-comment-unit-only DEFINITIONS AUTOMATIC TAGS ::= BEGIN
    Uint16-t ::= INTEGER(0..65535) -- [min]
END
";
"Module-test-simple-definition-comment-unit-only DEFINITIONS AUTOMATIC TAGS ::= BEGIN
    Uint16-t ::= INTEGER(0..65535) -- [min]
END
"]) = true.
Proof. vm_compute. reflexivity. Qed.

(** tests/unit/multi_module/test_multi_comments.py, test_simple_definition_comment_and_unit *)
Example unit_36 : accepts (parse_texts ["Module-test-simple-definition-comment-and-unit DEFINITIONS AUTOMATIC TAGS ::= BEGIN
    Uint16-t ::= INTEGER(0..65535) -- [min] test comment
END
";
"Module-test-simple-definition-comment-and-unit DEFINITIONS AUTOMATIC TAGS ::= BEGIN
    Uint16-t ::= INTEGER(0..65535) -- [min] test comment
END
"]) = true.
Proof. vm_compute. reflexivity. Qed.

(** tests/unit/multi_module/test_multi_multiimport.py, test_multi_multiimport *)
Example unit_37 : accepts (parse_texts ["Module-multiimport DEFINITIONS AUTOMATIC TAGS ::= BEGIN

  IMPORTS Uint64-t FROM Module-uint
          Load, Percent FROM Module-real;

  Payload-test ::= SEQUENCE {
    cpu Percent,
    load1 Load,
    free-swap Uint64-t
  }

END
";
"Module-uint DEFINITIONS AUTOMATIC TAGS ::= BEGIN

  Uint64-t ::= INTEGER(0..18446744073709551615)

END
";
"Module-real DEFINITIONS AUTOMATIC TAGS ::= BEGIN

  Percent ::= REAL(0.00 .. 100.00)
  Load ::= REAL(0.00 .. 30.00)

END
"]) = true.
Proof. vm_compute. reflexivity. Qed.

(** tests/unit/multi_module/test_multi_sequence.py, test_sequence_import_with_components *)
Example unit_38 : accepts (parse_texts ["Module-sandbox-hk-pc DEFINITIONS AUTOMATIC TAGS ::= BEGIN

  IMPORTS Ccsds-primary-header, Secondary-header FROM Module-tmtc-header;

  Uint64-t ::= INTEGER(0..18446744073709551615) -- 64 bit

  Percent ::= REAL(0.00 .. 100.00) -- [%] 0.00% to 100.00%
  Load ::= REAL(0.00 .. 30.00) -- TODO: check range not to big

  Sandbox-hk-pc-t ::= SEQUENCE {
    primary-header Ccsds-primary-header -- 0x0899
      (WITH COMPONENTS {
        packet-version-number (0),
        packet-identification (WITH COMPONENTS {
          packet-type-is-cmd (FALSE),
          sec-hdr-flag-is-present (TRUE),
          application-process-identifier (153)
        })
      }),
    secondary-header Secondary-header,
    payload Payload-sandbox-hk-pc-t
  }

  Payload-sandbox-hk-pc-t ::= SEQUENCE {
    cpu Percent,
    load1 Load,
    load5 Load,
    load15 Load,
    total-ram Uint64-t, -- [byte]
    free-ram Uint64-t, -- [byte]
    free-swap Uint64-t -- [byte]
  }

END
";
"Module-tmtc-header DEFINITIONS AUTOMATIC TAGS ::= BEGIN -- CCSDS TM/TC header

  Uint16-t ::= INTEGER(0..65535) -- 16 bit, 0x0000 to 0xFFFF
  Uint32-t ::= INTEGER(0..4294967295) -- 32 bit, 0x00000000 to 0xFFFFFFFF

  Ccsds-primary-header ::= SEQUENCE { -- primary header
    packet-version-number INTEGER(0..7), -- 3bit, 0b000 to 0b111
    packet-identification Packet-identification,
    packet-sequence-control Packet-sequence-control,
    packet-data-length Uint16-t
  }

  Packet-identification ::= SEQUENCE {
    packet-type-is-cmd BOOLEAN, -- 1: cmd, 0: tlm
    sec-hdr-flag-is-present BOOLEAN, -- 1: present, 0: absent
    application-process-identifier INTEGER(0..2047) -- 11 bit, 0b00000000000 to 0b11111111111
  }

  Packet-sequence-control ::= SEQUENCE {
    sequence-flags Sequence-flag,
    packet-sequence-count INTEGER(0..16383) -- 14 bit, 0b00000000000000 to 0b11111111111111
  }

  Sequence-flag ::= ENUMERATED { -- 2 bit, 0b00 to 0b11
    continuation-packet-in-sequence (0),
    first-packet-in-sequence (1),
    last-packet-in-sequence (2),
    complete-packet(3)
  }

  Secondary-header ::= SEQUENCE {
    seconds Uint32-t,
    subsecs Uint16-t
  }

END
"]) = true.
Proof. vm_compute. reflexivity. Qed.

(** tests/unit/single_module/test_array.py, test_array *)
Example unit_39 : accepts (parse_single_text "Module-test-array DEFINITIONS AUTOMATIC TAGS ::= BEGIN
    Simple-sequence ::= SEQUENCE {
        my-int INTEGER(0..7)
    }

    My-array ::= SEQUENCE (SIZE (8)) OF Simple-sequence
END
") = true.
Proof. vm_compute. reflexivity. Qed.

(** tests/unit/single_module/test_array.py, test_array_in_sequence *)
Example unit_40 : accepts (parse_single_text "Module-test-array-in-sequence DEFINITIONS AUTOMATIC TAGS ::= BEGIN
    Simple-sequence ::= SEQUENCE {
        my-int INTEGER(0..7)
    }

    Simple-sequence-with-array ::= SEQUENCE {
        my-array SEQUENCE (SIZE (8)) OF Simple-sequence,
        age INTEGER(0..128)
    }
END
") = true.
Proof. vm_compute. reflexivity. Qed.

(** tests/unit/single_module/test_array.py, test_array_of_integer *)
Example unit_41 : accepts (parse_single_text "Module-test-array-of-integer DEFINITIONS AUTOMATIC TAGS ::= BEGIN
    My-array ::= SEQUENCE (SIZE (8)) OF INTEGER(0..7)
END
") = true.
Proof. vm_compute. reflexivity. Qed.

(** tests/unit/single_module/test_choice.py, test_choice_one_item *)
Example unit_42 : accepts (parse_single_text "Module-test DEFINITIONS AUTOMATIC TAGS ::= BEGIN
    Seq-t ::= CHOICE {
        a-t BOOLEAN
    }
END
") = true.
Proof. vm_compute. reflexivity. Qed.

(** tests/unit/single_module/test_choice.py, test_choice_two_items *)
Example unit_43 : accepts (parse_single_text "Module-test DEFINITIONS AUTOMATIC TAGS ::= BEGIN
    Seq-t ::= CHOICE {
        a-t BOOLEAN,
        b-t BOOLEAN
    }
END
") = true.
Proof. vm_compute. reflexivity. Qed.

(** tests/unit/single_module/test_choice.py, test_choice_three_items *)
Example unit_44 : accepts (parse_single_text "Module-test DEFINITIONS AUTOMATIC TAGS ::= BEGIN
    Seq-t ::= CHOICE {
        a-t BOOLEAN,
        b-t BOOLEAN,
        c-t BOOLEAN
    }
END
") = true.
Proof. vm_compute. reflexivity. Qed.

(** tests/unit/single_module/test_choice_invalid.py, test_choice_extra_comma_one_item *)
Example unit_45 : parse_single_text "Module-test DEFINITIONS AUTOMATIC TAGS ::= BEGIN
    Seq-t ::= CHOICE {
        a-t BOOLEAN,
    }
END
" = Err TextXSyntaxError.
Proof. vm_compute. reflexivity. Qed.

(** tests/unit/single_module/test_choice_invalid.py, test_choice_extra_comma_two_items *)
Example unit_46 : parse_single_text "Module-test DEFINITIONS AUTOMATIC TAGS ::= BEGIN
    Seq-t ::= CHOICE {
        a-t BOOLEAN,
        b-t BOOLEAN,
    }
END
" = Err TextXSyntaxError.
Proof. vm_compute. reflexivity. Qed.

(** tests/unit/single_module/test_choice_invalid.py, test_choice_missing_comma_two_items *)
Example unit_47 : parse_single_text "Module-test DEFINITIONS AUTOMATIC TAGS ::= BEGIN
    Seq-t ::= CHOICE {
        a-t BOOLEAN
        b-t BOOLEAN
    }
END
" = Err TextXSyntaxError.
Proof. vm_compute. reflexivity. Qed.

(** tests/unit/single_module/test_choice_invalid.py, test_choice_missing_comma_three_items *)
Example unit_48 : parse_single_text "Module-test DEFINITIONS AUTOMATIC TAGS ::= BEGIN
    Seq-t ::= CHOICE {
        a-t BOOLEAN,
        b-t BOOLEAN
        c-t BOOLEAN
    }
END
" = Err TextXSyntaxError.
Proof. vm_compute. reflexivity. Qed.

(** tests/unit/single_module/test_comments.py, test_module_begin_comment *)
Example unit_49 : accepts (parse_single_text "Module-test-module-begin-comment DEFINITIONS AUTOMATIC TAGS ::= BEGIN -- test comment
    Enum-t ::= ENUMERATED {
        carrot,
        apple
    }
END
") = true.
Proof. vm_compute. reflexivity. Qed.

(** tests/unit/single_module/test_comments.py, test_module_begin_comment_unit_only *)
Example unit_50 : accepts (parse_single_text "Module-test-module-begin-comment-unit-only DEFINITIONS AUTOMATIC TAGS ::= BEGIN -- [min]
    Enum-t ::= ENUMERATED {
        carrot,
        apple
    }
END
") = true.
Proof. vm_compute. reflexivity. Qed.

(** tests/unit/single_module/test_comments.py, test_module_begin_comment_and_unit *)
Example unit_51 : accepts (parse_single_text "Module-test-module-begin-comment-and-unit DEFINITIONS AUTOMATIC TAGS ::= BEGIN -- [min] test comment
    Enum-t ::= ENUMERATED {
        carrot,
        apple
    }
END
") = true.
Proof. vm_compute. reflexivity. Qed.

(** tests/unit/single_module/test_comments.py, test_enumerated_comment *)
Example unit_52 : accepts (parse_single_text "Module-test-enumerated-comment DEFINITIONS AUTOMATIC TAGS ::= BEGIN
    Enum-t ::= ENUMERATED { -- test comment
        carrot,
        apple
    }
END
") = true.
Proof. vm_compute. reflexivity. Qed.

(** tests/unit/single_module/test_comments.py, test_enumerated_item_comment_last_entry *)
Example unit_53 : accepts (parse_single_text "Module-test-enumerated-item-comment-last-entry DEFINITIONS AUTOMATIC TAGS ::= BEGIN
    Enum-t ::= ENUMERATED {
        carrot,
        apple -- test comment
    }
END
") = true.
Proof. vm_compute. reflexivity. Qed.

(** tests/unit/single_module/test_comments.py, test_enumerated_item_comment_entry *)
Example unit_54 : accepts (parse_single_text "Module-test-enumerated-item-comment-entry DEFINITIONS AUTOMATIC TAGS ::= BEGIN
    Enum-t ::= ENUMERATED {
        carrot, -- test comment
        apple
    }
END
") = true.
Proof. vm_compute. reflexivity. Qed.

(** tests/unit/single_module/test_comments.py, test_enumerated_comment_unit_only *)
Example unit_55 : accepts (parse_single_text "Module-test-enumerated-comment-unit-only DEFINITIONS AUTOMATIC TAGS ::= BEGIN
    Enum-t ::= ENUMERATED { -- [min]
        carrot,
        apple
    }
END
") = true.
Proof. vm_compute. reflexivity. Qed.

(** tests/unit/single_module/test_comments.py, test_enumerated_item_comment_last_entry_unit_only *)
Example unit_56 : accepts (parse_single_text "Module-test-enumerated-item-comment-last-entry-unit-only DEFINITIONS AUTOMATIC TAGS ::= BEGIN
    Enum-t ::= ENUMERATED {
        carrot,
        apple -- [min]
    }
END
") = true.
Proof. vm_compute. reflexivity. Qed.

(** tests/unit/single_module/test_comments.py, test_enumerated_item_comment_entry_unit_only *)
Example unit_57 : accepts (parse_single_text "Module-test-enumerated-item-comment-entry-unit-only DEFINITIONS AUTOMATIC TAGS ::= BEGIN
    Enum-t ::= ENUMERATED {
        carrot, -- [min]
        apple
    }
END
") = true.
Proof. vm_compute. reflexivity. Qed.

(** tests/unit/single_module/test_comments.py, test_enumerated_comment_and_unit *)
Example unit_58 : accepts (parse_single_text "Module-test-enumerated-comment-and-unit DEFINITIONS AUTOMATIC TAGS ::= BEGIN
    Enum-t ::= ENUMERATED { -- [min] test comment
        carrot,
        apple
    }
END
") = true.
Proof. vm_compute. reflexivity. Qed.

(** tests/unit/single_module/test_comments.py, test_enumerated_item_comment_last_entry_and_unit *)
Example unit_59 : accepts (parse_single_text "Module-test-enumerated-item-comment-last-entry-and-unit DEFINITIONS AUTOMATIC TAGS ::= BEGIN
    Enum-t ::= ENUMERATED {
        carrot,
        apple -- [min] test comment
    }
END
") = true.
Proof. vm_compute. reflexivity. Qed.

(** tests/unit/single_module/test_comments.py, test_enumerated_item_comment_entry_and_unit *)
Example unit_60 : accepts (parse_single_text "Module-test-enumerated-item-comment-entry-and-unit DEFINITIONS AUTOMATIC TAGS ::= BEGIN
    Enum-t ::= ENUMERATED {
        carrot, -- [min] test comment
        apple
    }
END
") = true.
Proof. vm_compute. reflexivity. Qed.

(** tests/unit/single_module/test_comments.py, test_choice_comment *)
Example unit_61 : accepts (parse_single_text "Module-test-choice-comment DEFINITIONS AUTOMATIC TAGS ::= BEGIN
    Choice-t ::= CHOICE { -- test comment
        carrot INTEGER(0..255),
        apple INTEGER(0..255)
    }
END
") = true.
Proof. vm_compute. reflexivity. Qed.

(** tests/unit/single_module/test_comments.py, test_choice_item_comment_last_entry *)
Example unit_62 : accepts (parse_single_text "Module-test-choice-item-comment-last-entry DEFINITIONS AUTOMATIC TAGS ::= BEGIN
    Choice-t ::= CHOICE {
        carrot INTEGER(0..255),
        apple INTEGER(0..255) -- test comment
    }
END
") = true.
Proof. vm_compute. reflexivity. Qed.

(** tests/unit/single_module/test_comments.py, test_choice_item_comment_entry *)
Example unit_63 : accepts (parse_single_text "Module-test-choice-item-comment-entry DEFINITIONS AUTOMATIC TAGS ::= BEGIN
    Choice-t ::= CHOICE {
        carrot INTEGER(0..255), -- test comment
        apple INTEGER(0..255)
    }
END
") = true.
Proof. vm_compute. reflexivity. Qed.

(** tests/unit/single_module/test_comments.py, test_choice_comment_unit_only *)
Example unit_64 : accepts (parse_single_text "Module-test-choice-comment-unit-only DEFINITIONS AUTOMATIC TAGS ::= BEGIN
    Choice-t ::= CHOICE { -- [min]
        carrot INTEGER(0..255),
        apple INTEGER(0..255)
    }
END
") = true.
Proof. vm_compute. reflexivity. Qed.

(** tests/unit/single_module/test_comments.py, test_choice_item_comment_last_entry_unit_only *)
Example unit_65 : accepts (parse_single_text "Module-test-choice-item-comment-last-entry-unit-only DEFINITIONS AUTOMATIC TAGS ::= BEGIN
    Choice-t ::= CHOICE {
        carrot INTEGER(0..255),
        apple INTEGER(0..255) -- [min]
    }
END
") = true.
Proof. vm_compute. reflexivity. Qed.

(** tests/unit/single_module/test_comments.py, test_choice_item_comment_entry_unit_only *)
Example unit_66 : accepts (parse_single_text "Module-test-choice-item-comment-entry-unit-only DEFINITIONS AUTOMATIC TAGS ::= BEGIN
    Choice-t ::= CHOICE {
        carrot INTEGER(0..255), -- [min]
        apple INTEGER(0..255)
    }
END
") = true.
Proof. vm_compute. reflexivity. Qed.

(** tests/unit/single_module/test_comments.py, test_choice_comment_and_unit *)
Example unit_67 : accepts (parse_single_text "Module-test-choice-comment-and-unit DEFINITIONS AUTOMATIC TAGS ::= BEGIN
    Choice-t ::= CHOICE { -- [min] test comment
        carrot INTEGER(0..255),
        apple INTEGER(0..255)
    }
END
") = true.
Proof. vm_compute. reflexivity. Qed.

(** tests/unit/single_module/test_comments.py, test_choice_item_comment_last_entry_and_unit *)
Example unit_68 : accepts (parse_single_text "Module-test-choice-item-comment-last-entry-and-unit DEFINITIONS AUTOMATIC TAGS ::= BEGIN
    Choice-t ::= CHOICE {
        carrot INTEGER(0..255),
        apple INTEGER(0..255) -- [min] test comment
    }
END
") = true.
Proof. vm_compute. reflexivity. Qed.

(** tests/unit/single_module/test_comments.py, test_choice_item_comment_entry_and_unit *)
Example unit_69 : accepts (parse_single_text "Module-test-choice-item-comment-entry-and-unit DEFINITIONS AUTOMATIC TAGS ::= BEGIN
    Choice-t ::= CHOICE {
        carrot INTEGER(0..255), -- [min] test comment
        apple INTEGER(0..255)
    }
END
") = true.
Proof. vm_compute. reflexivity. Qed.

(** tests/unit/single_module/test_comments.py, test_sequence_comment *)
Example unit_70 : accepts (parse_single_text "Module-test-sequence-comment DEFINITIONS AUTOMATIC TAGS ::= BEGIN
    Seq ::= SEQUENCE { -- test comment
        carrot INTEGER(0..255),
        apple INTEGER(0..255)
    }
END
") = true.
Proof. vm_compute. reflexivity. Qed.

(** tests/unit/single_module/test_comments.py, test_sequence_item_comment_last_entry *)
Example unit_71 : accepts (parse_single_text "Module-test-sequence-comment-last-entry DEFINITIONS AUTOMATIC TAGS ::= BEGIN
    Seq ::= SEQUENCE {
        carrot INTEGER(0..255),
        apple INTEGER(0..255) -- test comment
    }
END
") = true.
Proof. vm_compute. reflexivity. Qed.

(** tests/unit/single_module/test_comments.py, test_sequence_item_comment_entry *)
Example unit_72 : accepts (parse_single_text "Module-test-sequence-comment-entry DEFINITIONS AUTOMATIC TAGS ::= BEGIN
    Seq ::= SEQUENCE {
        carrot INTEGER(0..255), -- test comment
        apple INTEGER(0..255)
    }
END
") = true.
Proof. vm_compute. reflexivity. Qed.

(** tests/unit/single_module/test_comments.py, test_sequence_comment_unit_only *)
Example unit_73 : accepts (parse_single_text "Module-test-sequence-comment-unit-only DEFINITIONS AUTOMATIC TAGS ::= BEGIN
    Seq ::= SEQUENCE { -- [min]
        carrot INTEGER(0..255),
        apple INTEGER(0..255)
    }
END
") = true.
Proof. vm_compute. reflexivity. Qed.

(** tests/unit/single_module/test_comments.py, test_sequence_item_comment_last_entry_unit_only *)
Example unit_74 : accepts (parse_single_text "Module-test-sequence-comment-last-entry-unit-only DEFINITIONS AUTOMATIC TAGS ::= BEGIN
    Seq ::= SEQUENCE {
        carrot INTEGER(0..255),
        apple INTEGER(0..255) -- [min]
    }
END
") = true.
Proof. vm_compute. reflexivity. Qed.

(** tests/unit/single_module/test_comments.py, test_sequence_item_comment_entry_unit_only *)
Example unit_75 : accepts (parse_single_text "Module-test-sequence-comment-entry-unit-only DEFINITIONS AUTOMATIC TAGS ::= BEGIN
    Seq ::= SEQUENCE {
        carrot INTEGER(0..255), -- [min]
        apple INTEGER(0..255)
    }
END
") = true.
Proof. vm_compute. reflexivity. Qed.

(** tests/unit/single_module/test_comments.py, test_sequence_comment_and_unit *)
Example unit_76 : accepts (parse_single_text "Module-test-sequence-comment-and-unit DEFINITIONS AUTOMATIC TAGS ::= BEGIN
    Seq ::= SEQUENCE { -- [min] test comment
        carrot INTEGER(0..255),
        apple INTEGER(0..255)
    }
END
") = true.
Proof. vm_compute. reflexivity. Qed.

(** tests/unit/single_module/test_comments.py, test_sequence_item_comment_last_entry_and_unit *)
Example unit_77 : accepts (parse_single_text "Module-test-sequence-comment-last-entry-and-unit DEFINITIONS AUTOMATIC TAGS ::= BEGIN
    Seq ::= SEQUENCE {
        carrot INTEGER(0..255),
        apple INTEGER(0..255) -- [min] test comment
    }
END
") = true.
Proof. vm_compute. reflexivity. Qed.

(** tests/unit/single_module/test_comments.py, test_sequence_item_comment_entry_and_unit *)
Example unit_78 : accepts (parse_single_text "Module-test-sequence-comment-entry-and-unit DEFINITIONS AUTOMATIC TAGS ::= BEGIN
    Seq ::= SEQUENCE {
        carrot INTEGER(0..255), -- [min] test comment
        apple INTEGER(0..255)
    }
END
") = true.
Proof. vm_compute. reflexivity. Qed.

(** tests/unit/single_module/test_comments.py, test_simple_definition_comment *)
Example unit_79 : accepts (parse_single_text "Module-test-simple-definition-comment DEFINITIONS AUTOMATIC TAGS ::= BEGIN
    Uint16-t ::= INTEGER(0..65535) -- test comment
END
") = true.
Proof. vm_compute. reflexivity. Qed.

(** tests/unit/single_module/test_comments.py, test_simple_definition_comment_unit_only *)
Example unit_80 : accepts (parse_single_text "Module-test-simple-definition-comment-unit-only DEFINITIONS AUTOMATIC TAGS ::= BEGIN
    Uint16-t ::= INTEGER(0..65535) -- [min]
END
") = true.
Proof. vm_compute. reflexivity. Qed.

(** tests/unit/single_module/test_comments.py, test_simple_definition_comment_and_unit *)
Example unit_81 : accepts (parse_single_text "Module-test-simple-definition-comment-and-unit DEFINITIONS AUTOMATIC TAGS ::= BEGIN
    Uint16-t ::= INTEGER(0..65535) -- [min] test comment
END
") = true.
Proof. vm_compute. reflexivity. Qed.

(** tests/unit/single_module/test_comments_invalid.py, test_inline_comment *)
Example unit_82 : parse_single_text "Module-test-enumerated-comment DEFINITIONS AUTOMATIC TAGS ::= BEGIN
    Enum-t ::= -- test comment -- ENUMERATED {
        carrot,
        apple
    }
END
" = Err TextXSyntaxError.
Proof. vm_compute. reflexivity. Qed.

(** tests/unit/single_module/test_enumerated.py, test_enumerated_item_no_values *)
Example unit_83 : accepts (parse_single_text "Module-test-enumerated-item-no-values DEFINITIONS AUTOMATIC TAGS ::= BEGIN
    Enum-t ::= ENUMERATED {
        carrot,
        apple,
        banana
    }
END
") = true.
Proof. vm_compute. reflexivity. Qed.

(** tests/unit/single_module/test_enumerated.py, test_enumerated_item_values *)
Example unit_84 : accepts (parse_single_text "Module-test-enumerated-item-values DEFINITIONS AUTOMATIC TAGS ::= BEGIN
    Enum-t ::= ENUMERATED {
        carrot (2),
        apple (0),
        banana (1)
    }
END
") = true.
Proof. vm_compute. reflexivity. Qed.

(** tests/unit/single_module/test_enumerated.py, test_enumerated_item_mixed_values_0 *)
Example unit_85 : accepts (parse_single_text "Module-test-enumerated-item-mixed-values-0 DEFINITIONS AUTOMATIC TAGS ::= BEGIN
    Enum-t ::= ENUMERATED {
        carrot,
        apple (0),
        banana
    }
END
") = true.
Proof. vm_compute. reflexivity. Qed.

(** tests/unit/single_module/test_enumerated.py, test_enumerated_one_item *)
Example unit_86 : accepts (parse_single_text "Module-test DEFINITIONS AUTOMATIC TAGS ::= BEGIN
    Enum-t ::= ENUMERATED {
        a-t
    }
END
") = true.
Proof. vm_compute. reflexivity. Qed.

(** tests/unit/single_module/test_enumerated.py, test_enumerated_two_items *)
Example unit_87 : accepts (parse_single_text "Module-test DEFINITIONS AUTOMATIC TAGS ::= BEGIN
    Enum-t ::= ENUMERATED {
        a-t,
        b-t
    }
END
") = true.
Proof. vm_compute. reflexivity. Qed.

(** tests/unit/single_module/test_enumerated.py, test_enumerated_three_items *)
Example unit_88 : accepts (parse_single_text "Module-test DEFINITIONS AUTOMATIC TAGS ::= BEGIN
    Enum-t ::= ENUMERATED {
        a-t,
        b-t,
        c-t
    }
END
") = true.
Proof. vm_compute. reflexivity. Qed.

(** tests/unit/single_module/test_enumerated_invalid.py, test_enumerated_extra_comma_one_item *)
Example unit_89 : parse_single_text "Module-test DEFINITIONS AUTOMATIC TAGS ::= BEGIN
    Enum-t ::= ENUMERATED {
        a-t,
    }
END
" = Err TextXSyntaxError.
Proof. vm_compute. reflexivity. Qed.

(** tests/unit/single_module/test_enumerated_invalid.py, test_enumerated_extra_comma_two_items *)
Example unit_90 : parse_single_text "Module-test DEFINITIONS AUTOMATIC TAGS ::= BEGIN
    Enum-t ::= ENUMERATED {
        a-t,
        b-t,
    }
END
" = Err TextXSyntaxError.
Proof. vm_compute. reflexivity. Qed.

(** tests/unit/single_module/test_enumerated_invalid.py, test_enumerated_missing_comma_two_items *)
Example unit_91 : parse_single_text "Module-test DEFINITIONS AUTOMATIC TAGS ::= BEGIN
    Enum-t ::= ENUMERATED {
        a-t
        b-t
    }
END
" = Err TextXSyntaxError.
Proof. vm_compute. reflexivity. Qed.

(** tests/unit/single_module/test_enumerated_invalid.py, test_enumerated_missing_comma_three_items *)
Example unit_92 : parse_single_text "Module-test DEFINITIONS AUTOMATIC TAGS ::= BEGIN
    Enum-t ::= ENUMERATED {
        a-t,
        b-t
        c-t
    }
END
" = Err TextXSyntaxError.
Proof. vm_compute. reflexivity. Qed.

(** tests/unit/single_module/test_enumerated_invalid.py, test_enumerated_item_mixed_values_1 *)
Example unit_93 : parse_single_text "Module-test-enumerated-item-mixed-values-1 DEFINITIONS AUTOMATIC TAGS ::= BEGIN
    Enum-t ::= ENUMERATED {
        carrot,
        apple,
        banana (1)
    }
END
" = Err IndexErr.
Proof. vm_compute. reflexivity. Qed.

(** tests/unit/single_module/test_enumerated_invalid.py, test_enumerated_item_n_values *)
Example unit_94 : parse_single_text "Module-test-enumerated-item-n-values DEFINITIONS AUTOMATIC TAGS ::= BEGIN
    Enum-t ::= ENUMERATED {
        carrot (2),
        apple (0),
        banana (-1)
    }
END
" = Err IndexErr.
Proof. vm_compute. reflexivity. Qed.

(** tests/unit/single_module/test_enumerated_invalid.py, test_enumerated_item_false_values *)
Example unit_95 : parse_single_text "Module-test-enumerated-item-false-values DEFINITIONS AUTOMATIC TAGS ::= BEGIN
    Enum-t ::= ENUMERATED {
        carrot (5),
        apple (0),
        banana (1)
    }
END
" = Err IndexErr.
Proof. vm_compute. reflexivity. Qed.

(** tests/unit/single_module/test_enumerated_invalid.py, test_enumerated_item_multiple_values_sum *)
Example unit_96 : parse_single_text "Module-test-enumerated-item-multiple-values-sum DEFINITIONS AUTOMATIC TAGS ::= BEGIN
    Enum-t ::= ENUMERATED {
        carrot (2),
        apple (2),
        banana (1),
        pear (1)
    }
END
" = Err IndexErr.
Proof. vm_compute. reflexivity. Qed.

(** tests/unit/single_module/test_enumerated_invalid.py, test_enumerated_item_multiple_values *)
Example unit_97 : parse_single_text "Module-test-enumerated-item-multiple-values DEFINITIONS AUTOMATIC TAGS ::= BEGIN
    Enum-t ::= ENUMERATED {
        carrot (1),
        apple (0),
        banana (1)
    }
END
" = Err IndexErr.
Proof. vm_compute. reflexivity. Qed.

(** tests/unit/single_module/test_parse_module_simple_def.py, test_parse_for_simple_defs *)
Example unit_98 : accepts (parse_single_text "Module-test-string DEFINITIONS AUTOMATIC TAGS ::= BEGIN
    Number ::= INTEGER(0..7)
    Simple-sequence ::= SEQUENCE {
        number Number
    }
END
") = true.
Proof. vm_compute. reflexivity. Qed.

(** tests/unit/single_module/test_sequence.py, test_sequence_enumerated *)
Example unit_99 : accepts (parse_single_text "Module-test-sequence-enumerated DEFINITIONS AUTOMATIC TAGS ::= BEGIN
    Seq ::= SEQUENCE {
        my-fruit Fruits-t,
        my-drinks Drinks-t
    }

    Fruits-t ::= ENUMERATED {
        apple,
        pear,
        peach
    }

    Drinks-t ::= ENUMERATED {
        milk,
        tea
    }
END
") = true.
Proof. vm_compute. reflexivity. Qed.

(** tests/unit/single_module/test_sequence.py, test_sequence_with_components *)
Example unit_100 : accepts (parse_single_text "Module-test-sequence-with-components DEFINITIONS AUTOMATIC TAGS ::= BEGIN
    Sandbox-ping ::= SEQUENCE {
        primary-header Ccsds-primary-header
            (WITH COMPONENTS {
                packet-version-number (0),
                packet-identification (TRUE),
                packet-sequence-control (1.23)
            }),
        secondary-header INTEGER(1..3)
    }

    Ccsds-primary-header ::= SEQUENCE {
        packet-version-number INTEGER(0..7),
        packet-identification BOOLEAN,
        packet-sequence-control REAL(0.1 .. 3.1415),
        packet-data-length INTEGER(3..4)
    }
END
") = true.
Proof. vm_compute. reflexivity. Qed.

(** tests/unit/single_module/test_sequence.py, test_sequence_with_components_multiple *)
Example unit_101 : accepts (parse_single_text "Module-test-sequence-with-components-multiple DEFINITIONS AUTOMATIC TAGS ::= BEGIN
    Sandbox-ping ::= SEQUENCE {
        primary-header Ccsds-primary-header
            (WITH COMPONENTS {
                packet-version-number (0),
                packet-identification (WITH COMPONENTS {
                    packet-type-is-cmd (FALSE),
                    sec-hdr-flag-is-present (TRUE),
                    application-process-identifier (136)
                })
            }),
        secondary-header INTEGER(1..3)
    }

    Ccsds-primary-header ::= SEQUENCE {
        packet-version-number INTEGER(0..7),
        packet-identification Packet-identification,
        packet-sequence-control REAL(0.1 .. 3.1415),
        packet-data-length INTEGER(3..4)
    }

    Packet-identification ::= SEQUENCE {
        packet-type-is-cmd BOOLEAN,
        sec-hdr-flag-is-present BOOLEAN,
        application-process-identifier INTEGER(0..2047)
    }
END
") = true.
Proof. vm_compute. reflexivity. Qed.

(** tests/unit/single_module/test_sequence.py, test_sequence_one_item *)
Example unit_102 : accepts (parse_single_text "Module-test-sequence DEFINITIONS AUTOMATIC TAGS ::= BEGIN
    Seq ::= SEQUENCE {
        a INTEGER(0..255)
    }
END
") = true.
Proof. vm_compute. reflexivity. Qed.

(** tests/unit/single_module/test_sequence.py, test_sequence_two_items *)
Example unit_103 : accepts (parse_single_text "Module-test-sequence DEFINITIONS AUTOMATIC TAGS ::= BEGIN
    Seq ::= SEQUENCE {
        a INTEGER(0..255),
        b INTEGER(0..255)
    }
END
") = true.
Proof. vm_compute. reflexivity. Qed.

(** tests/unit/single_module/test_sequence.py, test_sequence_three_items *)
Example unit_104 : accepts (parse_single_text "Module-test-sequence DEFINITIONS AUTOMATIC TAGS ::= BEGIN
    Seq ::= SEQUENCE {
        a INTEGER(0..255),
        b INTEGER(0..255),
        c INTEGER(0..255)
    }
END
") = true.
Proof. vm_compute. reflexivity. Qed.

(** tests/unit/single_module/test_sequence_invalid.py, test_sequence_extra_comma_one_item *)
Example unit_105 : parse_single_text "Module-test DEFINITIONS AUTOMATIC TAGS ::= BEGIN
    Seq-t ::= SEQUENCE {
        a-t BOOLEAN,
    }
END
" = Err TextXSyntaxError.
Proof. vm_compute. reflexivity. Qed.

(** tests/unit/single_module/test_sequence_invalid.py, test_sequence_extra_comma_two_items *)
Example unit_106 : parse_single_text "Module-test DEFINITIONS AUTOMATIC TAGS ::= BEGIN
    Seq-t ::= SEQUENCE {
        a-t BOOLEAN,
        b-t BOOLEAN,
    }
END
" = Err TextXSyntaxError.
Proof. vm_compute. reflexivity. Qed.

(** tests/unit/single_module/test_sequence_invalid.py, test_sequence_missing_comma_two_items *)
Example unit_107 : parse_single_text "Module-test DEFINITIONS AUTOMATIC TAGS ::= BEGIN
    Seq-t ::= SEQUENCE {
        a-t BOOLEAN
        b-t BOOLEAN
    }
END
" = Err TextXSyntaxError.
Proof. vm_compute. reflexivity. Qed.

(** tests/unit/single_module/test_sequence_invalid.py, test_sequence_missing_comma_three_items *)
Example unit_108 : parse_single_text "Module-test DEFINITIONS AUTOMATIC TAGS ::= BEGIN
    Seq-t ::= SEQUENCE {
        a-t BOOLEAN,
        b-t BOOLEAN
        c-t BOOLEAN
    }
END
" = Err TextXSyntaxError.
Proof. vm_compute. reflexivity. Qed.

(** tests/unit/single_module/test_sequence_invalid.py, test_sequence_undefined_types *)
Example unit_109 : parse_single_text "Module-test-sequence-undefined-types DEFINITIONS AUTOMATIC TAGS ::= BEGIN
    Seq-t ::= SEQUENCE {
        my-fruit Fruits-t,
        my-drinks Drinks-t
    }
END
" = Err ConsistencyError.
Proof. vm_compute. reflexivity. Qed.

(** tests/unit/single_module/test_sequence_invalid.py, test_sequence_with_components_not_defined *)
Example unit_110 : parse_single_text "Module-test-sequence-with-components-not-defined DEFINITIONS AUTOMATIC TAGS ::= BEGIN
    Sandbox-ping ::= SEQUENCE {
        primary-header Ccsds-primary-header
            (WITH COMPONENTS {
                packet-version (0),
                packet-identification (TRUE),
                packet-sequence-control (1.23)
            }),
        secondary-header INTEGER(1..3)
    }

    Ccsds-primary-header ::= SEQUENCE {
        packet-version-number INTEGER(0..7),
        packet-identification BOOLEAN,
        packet-sequence-control REAL(0.1 .. 3.1415),
        packet-data-length INTEGER(3..4)
    }
END
" = Err ConsistencyError.
Proof. vm_compute. reflexivity. Qed.

(** tests/unit/single_module/test_sequence_invalid.py, test_sequence_with_components_type_not_defined *)
Example unit_111 : parse_single_text "Module-test-sequence-with-components-type-not-defined DEFINITIONS AUTOMATIC TAGS ::= BEGIN
    Sandbox-ping ::= SEQUENCE {
        primary-header Ccsds-primary
            (WITH COMPONENTS {
                packet-version-number (0),
                packet-identification (TRUE),
                packet-sequence-control (1.23)
            }),
        secondary-header INTEGER(1..3)
    }

    Ccsds-primary-header ::= SEQUENCE {
        packet-version-number INTEGER(0..7),
        packet-identification BOOLEAN,
        packet-sequence-control REAL(0.1 .. 3.1415),
        packet-data-length INTEGER(3..4)
    }
END
" = Err ConsistencyError.
Proof. vm_compute. reflexivity. Qed.

(** tests/unit/single_module/test_sequence_invalid.py, test_sequence_with_components_multiple_not_defined *)
Example unit_112 : parse_single_text "Module-test-sequence-with-components-multiple-not-defined DEFINITIONS AUTOMATIC TAGS ::= BEGIN
    Sandbox-ping ::= SEQUENCE {
        primary-header Ccsds-primary-header
            (WITH COMPONENTS {
                packet-version-number (0),
                packet-identification (WITH COMPONENTS {
                    packet-type (FALSE),
                    sec-hdr-flag-is-present (TRUE),
                    application-process-identifier (136)
                })
            }),
        secondary-header INTEGER(1..3)
    }

    Ccsds-primary-header ::= SEQUENCE {
        packet-version-number INTEGER(0..7),
        packet-identification Packet-identification,
        packet-sequence-control REAL(0.1 .. 3.1415),
        packet-data-length INTEGER(3..4)
    }

    Packet-identification ::= SEQUENCE {
        packet-type-is-cmd BOOLEAN,
        sec-hdr-flag-is-present BOOLEAN,
        application-process-identifier INTEGER(0..2047)
    }
END
" = Err ConsistencyError.
Proof. vm_compute. reflexivity. Qed.

(** tests/unit/single_module/test_sequence_invalid.py, test_sequence_with_components_multiple_type_not_defined *)
Example unit_113 : parse_single_text "Module-test-sequence-with-components-multiple-type-not-defined DEFINITIONS AUTOMATIC TAGS ::= BEGIN
    Sandbox-ping ::= SEQUENCE {
        primary-header Ccsds-primary
            (WITH COMPONENTS {
                packet-version-number (0),
                packet-identification (WITH COMPONENTS {
                    packet-type-is-cmd (FALSE),
                    sec-hdr-flag-is-present (TRUE),
                    application-process-identifier (136)
                })
            }),
        secondary-header INTEGER(1..3)
    }

    Ccsds-primary-header ::= SEQUENCE {
        packet-version-number INTEGER(0..7),
        packet-identification Packet-identification,
        packet-sequence-control REAL(0.1 .. 3.1415),
        packet-data-length INTEGER(3..4)
    }

    Packet-identification ::= SEQUENCE {
        packet-type-is-cmd BOOLEAN,
        sec-hdr-flag-is-present BOOLEAN,
        application-process-identifier INTEGER(0..2047)
    }
END
" = Err ConsistencyError.
Proof. vm_compute. reflexivity. Qed.

(** tests/unit/single_module/test_simple_definition.py, test_simple_definition_integer_pos_pos *)
Example unit_114 : accepts (parse_single_text "Module-test-simple-definition-integer-pos-pos DEFINITIONS AUTOMATIC TAGS ::= BEGIN
    Uint16-t ::= INTEGER(0..65535)
END
") = true.
Proof. vm_compute. reflexivity. Qed.

(** tests/unit/single_module/test_simple_definition.py, test_simple_definition_integer_neg_neg *)
Example unit_115 : accepts (parse_single_text "Module-test-simple-definition-integer-neg-neg DEFINITIONS AUTOMATIC TAGS ::= BEGIN
    Nint16-t ::= INTEGER(-65535..-1)
END
") = true.
Proof. vm_compute. reflexivity. Qed.

(** tests/unit/single_module/test_simple_definition.py, test_simple_definition_integer_neg_pos *)
Example unit_116 : accepts (parse_single_text "Module-test-simple-definition-integer-neg-pos DEFINITIONS AUTOMATIC TAGS ::= BEGIN
    Nint16-t ::= INTEGER(-65535..0)
END
") = true.
Proof. vm_compute. reflexivity. Qed.

(** tests/unit/single_module/test_simple_definition.py, test_simple_definition_real_pos_pos *)
Example unit_117 : accepts (parse_single_text "Module-test-simple-definition-real-pos-pos DEFINITIONS AUTOMATIC TAGS ::= BEGIN
    Myreal-t ::= REAL(0.0 .. 3.1415)
END
") = true.
Proof. vm_compute. reflexivity. Qed.

(** tests/unit/single_module/test_simple_definition.py, test_simple_definition_real_neg_neg *)
Example unit_118 : accepts (parse_single_text "Module-test-simple-definition-real-neg-neg DEFINITIONS AUTOMATIC TAGS ::= BEGIN
    Myreal-t ::= REAL(-3.1415 .. -1.0)
END
") = true.
Proof. vm_compute. reflexivity. Qed.

(** tests/unit/single_module/test_simple_definition.py, test_simple_definition_real_neg_pos *)
Example unit_119 : accepts (parse_single_text "Module-test-simple-definition-real-neg-pos DEFINITIONS AUTOMATIC TAGS ::= BEGIN
    Myreal-t ::= REAL(-3.1415 .. 0.0)
END
") = true.
Proof. vm_compute. reflexivity. Qed.

(** tests/unit/single_module/test_simple_definition_invalid.py, test_simple_definition_integer_pos_neg *)
Example unit_120 : parse_single_text "Module-test-simple-definition-integer-pos-neg DEFINITIONS AUTOMATIC TAGS ::= BEGIN
    Nint-t ::= INTEGER(1..-1)
END
" = Err ValueErr.
Proof. vm_compute. reflexivity. Qed.

(** tests/unit/single_module/test_simple_definition_invalid.py, test_simple_definition_float_pos_neg *)
Example unit_121 : parse_single_text "Module-test-simple-definition-real-pos-neg DEFINITIONS AUTOMATIC TAGS ::= BEGIN
    Nreal-t ::= REAL(1.0 .. -1.2)
END
" = Err ValueErr.
Proof. vm_compute. reflexivity. Qed.

(** tests/unit/single_module/test_string.py, test_string *)
Example unit_122 : accepts (parse_single_text "Module-test-string DEFINITIONS AUTOMATIC TAGS ::= BEGIN
    Simple-sequence ::= SEQUENCE {
        my-string IA5String (SIZE (128))
    }
END
") = true.
Proof. vm_compute. reflexivity. Qed.

(** tests/unit/single_module/test_string.py, test_string_numeric *)
Example unit_123 : accepts (parse_single_text "Module-test-string-numeric DEFINITIONS AUTOMATIC TAGS ::= BEGIN
    Simple-sequence ::= SEQUENCE {
        my-string NumericString (SIZE (8))
    }
END
") = true.
Proof. vm_compute. reflexivity. Qed.

(** tests/unit/test_hello.py, test_001_minimal_doc *)
Example unit_124 : accepts (parse_single_text "Module-enumeration-test DEFINITIONS AUTOMATIC TAGS ::= BEGIN

  Food-t ::= ENUMERATED {
    carrot,
    apple,
    banana
  }

END
") = true.
Proof. vm_compute. reflexivity. Qed.
