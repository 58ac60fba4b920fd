{"id": "C01", "title": "Accepted enumerations are numbered 0..n-1 without gaps", "statement": "Whenever an ENUMERATED is accepted, its items are handed to the generators as a reordering of the written items in which the item at position i carries the value i, so no item is lost, duplicated or given a value outside 0..n-1; every other assignment of numbers is rejected with an IndexError (or renumbered, see C02).", "quantifier": "every enumeration of any length with any mix of explicit (also negative) and omitted numbers", "why_tests_cant": "the sum/slot check could be fooled by some combination of duplicates, gaps and negative numbers; there are infinitely many combinations", "anchors": ["asn1_parser/asn1/processor.py:check_enumerated", "asn1_parser/asn1/grammar_elements/enumerated.py:Enumerated"]}
{"id": "C02", "title": "Explicit enumeration numbers survive", "statement": "If an ENUMERATED in which every item has an explicit number is accepted, every item keeps exactly the number the author wrote.", "quantifier": "every fully numbered enumeration", "why_tests_cant": "holds on all the examples of the test-suite; the counterexamples are number assignments whose sum is zero", "anchors": ["asn1_parser/asn1/processor.py:check_enumerated"]}
{"id": "C03", "title": "C and COSMOS agree on enumerations", "statement": "For every accepted enumeration the C enumerator value of a key equals the COSMOS STATE value of the same key, and the C bit-field width of a member of that enumeration equals the COSMOS item width; that width holds every value and no smaller width does.", "quantifier": "every accepted enumeration and every member using it", "why_tests_cant": "relates two generators through all enumerations of all sizes", "anchors": ["asn1_parser/generators/generator.py:Generator._convert_enumerated_to_c", "asn1_parser/generators/cosmos/generator.py:COSMOSGenerator._create_telemetry_item_data", "asn1_parser/generators/cosmos/templates.py:cosmos_telemetry", "asn1_parser/asn1/grammar_elements/enumerated.py:Enumerated.get_size_bits"]}
{"id": "C04", "title": "Unsigned range size is sufficient and minimal", "statement": "The bit size computed for INTEGER(b..e) with b>=0 is the least w such that every value of the range is below 2^w.", "quantifier": "all 0 <= b <= e", "why_tests_cant": "unbounded integers; off-by-one at every power of two", "anchors": ["asn1_parser/utils/size.py:get_bit_size"]}
{"id": "C05", "title": "Signed range size is sufficient and minimal among 8/16/32/64", "statement": "The bit size computed for INTEGER(b..e) with b<0 is the smallest of 8, 16, 32, 64 whose two's complement range contains b..e, and a ValueError is raised exactly when no such size exists.", "quantifier": "all b < 0, b <= e", "why_tests_cant": "unbounded integers", "anchors": ["asn1_parser/utils/size.py:get_bit_size"]}
{"id": "C06", "title": "Bits to bytes is exact or rejected", "statement": "Converting a bit count to bytes either returns n with 8*n = bits or raises ValueError, and it raises exactly when bits is not a multiple of 8.", "quantifier": "every integer bit count", "why_tests_cant": "the implementation goes through floating-point division, which is only exact up to some magnitude", "anchors": ["asn1_parser/utils/size.py:bit_to_bytes"]}
{"id": "C07", "title": "The size of a message is the sum of the sizes of its leaves", "statement": "For a validated bundle without recursive types the bit size reported for a SEQUENCE is the sum, over its members in order, of the sizes of the members, nested sequences contributing the sum of their own members; for a recursive type there is no result, however deep the recursion.", "quantifier": "all bundles, all sequences, any nesting depth", "why_tests_cant": "nesting depth and shape are unbounded", "anchors": ["asn1_parser/asn1/grammar_elements/sequence.py:Sequence.get_size_bits", "asn1_parser/asn1/grammar_elements/asn1_type.py:Asn1Type.get_size_bits", "asn1_parser/asn1/asn1_bundle_builder.py:ASN1BundleBuilder._resolve_types"]}
{"id": "C08", "title": "C type chosen for an unsigned range holds the range", "statement": "For a member or simple type INTEGER(b..e), b>=0, of 1 to 64 bits the generated C field has the smallest of uint8_t/uint16_t/uint32_t/uint64_t that holds the width, and is a bit-field of exactly the computed width unless the width is 8, 16, 32 or 64.", "quantifier": "all unsigned ranges", "why_tests_cant": "every width must be covered; widths 0 and above 64 behave differently", "anchors": ["asn1_parser/generators/generator.py:Generator._map_simple_types_to_c"]}
{"id": "C09", "title": "C type chosen for a signed range has the computed width", "statement": "For every member of a signed integer type the generated C field has exactly the width that the size computation (and hence COSMOS) uses for it.", "quantifier": "all signed ranges, named or inline", "why_tests_cant": "quantifies over all ranges and spellings; holds for the spellings the tests use", "anchors": ["asn1_parser/generators/generator.py:Generator._map_simple_types_to_c", "asn1_parser/generators/generator.py:Generator._convert_sequence_to_c"]}
{"id": "C10", "title": "cFS struct and COSMOS packet describe the same bits", "statement": "For every message that both generators accept, the flattened list of fields of the generated packed C struct (name, bit offset, bit width) equals the list of items of the generated COSMOS packet.", "quantifier": "all validated bundles and all messages in them", "why_tests_cant": "two independent generators over unboundedly nested types", "anchors": ["asn1_parser/generators/generator.py:Generator._convert_sequence_to_c", "asn1_parser/generators/cosmos/generator.py:COSMOSGenerator._create_telemetry_item_data", "README.md"]}
{"id": "C11", "title": "Modules are generated importers first, each exactly once", "statement": "For every bundle with distinct module names and acyclic imports the module ordering terminates, contains every module exactly once, and puts a module before every module it imports.", "quantifier": "all bundles, any number of modules and any input order", "why_tests_cant": "the loop mutates the list it iterates over; all graph shapes and input orders matter", "anchors": ["asn1_parser/generators/cfs/module_sorter.py:ModuleSorter.create_ordered_import_list", "asn1_parser/asn1/asn1_bundle.py:ASN1Bundle.get_modules_ordered"]}
{"id": "C12", "title": "Circular imports are rejected", "statement": "A bundle with circular imports makes the cfs, c and binary commands fail with an error instead of hanging.", "quantifier": "all cyclic import graphs (self-import included)", "why_tests_cant": "non-termination cannot be observed by a test", "anchors": ["asn1_parser/generators/cfs/module_sorter.py:ModuleSorter.create_ordered_import_list", "docs/source/2-content.rst"]}
{"id": "C13", "title": "Definitions are emitted after the definitions they use", "statement": "Within a module, the emitted order of definitions is a reordering of the written ones, and each SEQUENCE or CHOICE comes after every local definition its members use; this order exists and is found whenever the types are not recursive.", "quantifier": "all modules, any textual order of definitions", "why_tests_cant": "fixpoint loop; all dependency graphs and orders", "anchors": ["asn1_parser/generators/cfs/module_sorter.py:ModuleSorter.get_definitions_sorted_by_dependency"]}
{"id": "C14", "title": "Recursive types are rejected", "statement": "A module whose types refer to each other recursively makes generation fail with an error instead of hanging.", "quantifier": "all modules with a dependency cycle", "why_tests_cant": "non-termination cannot be observed by a test", "anchors": ["asn1_parser/generators/cfs/module_sorter.py:ModuleSorter.get_definitions_sorted_by_dependency"]}
{"id": "C15", "title": "Every used type is defined", "statement": "In an accepted module every type name used by a member of a SEQUENCE or CHOICE (array elements included) is built in, imported, or defined in the module; a module in which some member uses another name is rejected.", "quantifier": "all modules", "why_tests_cant": "must hold for all names, nestings of arrays and definitions", "anchors": ["asn1_parser/asn1/processor.py:model_processor_check_used_types_defined", "asn1_parser/asn1/processor.py:_check_types_once_defined"]}
{"id": "C16", "title": "Every import resolves", "statement": "In a validated bundle every imported module is part of the bundle and defines every name imported from it; otherwise the build is rejected.", "quantifier": "all bundles", "why_tests_cant": "all import graphs", "anchors": ["asn1_parser/asn1/asn1_bundle_builder.py:ASN1BundleBuilder._resolve_dependencies", "asn1_parser/asn1/validation/asn1_bundle_validator.py:ASN1BundleValidator._check_imported_types_and_check_components"]}
{"id": "C17", "title": "Type names are unique in a bundle", "statement": "A bundle is accepted only if no two definitions, in the same or in different modules, have the same type name.", "quantifier": "all bundles", "why_tests_cant": "all placements of a duplicate", "anchors": ["asn1_parser/asn1/validation/asn1_bundle_validator.py:ASN1BundleValidator._check_bundle_for_duplicate_definitions"]}
{"id": "C18", "title": "Module names are unique", "statement": "No command accepts two modules with the same name.", "quantifier": "all bundles, all commands", "why_tests_cant": "all placements of a duplicate and all commands", "anchors": ["asn1_parser/asn1/asn1_bundle_builder.py:ASN1BundleBuilder._validate_unique_module_names", "asn1_parser/asn1/asn1_bundle_builder.py:ASN1BundleBuilder.build_from_cosmos_config"]}
{"id": "C19", "title": "--asn1-modules lists exactly the modules read", "statement": "The cfs, c and binary commands accept a bundle only if the names given to --asn1-modules are, without repetition, exactly the names of the modules read; naming a strict subset is always rejected.", "quantifier": "all bundles and argument lists", "why_tests_cant": "all lists of names", "anchors": ["asn1_parser/asn1/validation/asn1_bundle_validator.py:ASN1BundleValidator.check_missing_modules", "asn1_parser/asn1/asn1_bundle_builder.py:ASN1BundleBuilder._validate_unique_module_names"]}
{"id": "C20", "title": "WITH COMPONENTS keys exist at every depth", "statement": "In a validated bundle every key in a WITH COMPONENTS clause of a sequence member is a member of the sequence type it constrains, at every nesting depth; a clause with a foreign key is rejected.", "quantifier": "all bundles, any nesting depth of clauses", "why_tests_cant": "unbounded nesting", "anchors": ["asn1_parser/asn1/processor.py:_check_with_component", "asn1_parser/asn1/processor.py:model_processor_check_used_components_defined"]}
{"id": "C21", "title": "WITH COMPONENTS values fit the component's type", "statement": "A WITH COMPONENTS value that is outside the range of the component's type is rejected.", "quantifier": "all values and ranges", "why_tests_cant": "all values", "anchors": ["asn1_parser/asn1/processor.py:_check_with_component", "asn1_parser/asn1/processor.py:str_to_bool"]}
{"id": "C22", "title": "Reversed ranges are rejected", "statement": "In an accepted module every INTEGER or REAL range, also inside arrays of any depth, has its lower bound not above its upper bound; otherwise a ValueError is raised.", "quantifier": "all modules, all nesting depths of arrays, all bounds (floats included)", "why_tests_cant": "all bounds and nestings", "anchors": ["asn1_parser/asn1/processor.py:asn1_type"]}
{"id": "C23", "title": "NULL is never accepted", "statement": "A module in which any member or simple definition has type NULL, also as element type of an array of any depth, is rejected.", "quantifier": "all modules", "why_tests_cant": "all positions and nestings", "anchors": ["asn1_parser/asn1/processor.py:null_exception_catch"]}
{"id": "C24", "title": "POSIX type names mean POSIX types", "statement": "If a definition named Int8-t..Int64-t or Uint8-t..Uint64-t (Float, Double) is accepted, it is an INTEGER (REAL) with exactly the range of the POSIX type of that name.", "quantifier": "all definitions with a POSIX name", "why_tests_cant": "all ranges and both kinds of type", "anchors": ["asn1_parser/asn1/processor.py:check_posix", "asn1_parser/utils/size.py:ASN1_POSIX_RANGE"]}
{"id": "C25", "title": "REAL ranges get a type that holds them", "statement": "A REAL range is mapped to float only if both bounds lie within +-3.4e38, otherwise to double if both bounds are finite doubles, otherwise it is rejected.", "quantifier": "all pairs of bounds", "why_tests_cant": "all doubles", "anchors": ["asn1_parser/asn1/processor.py:asn1_type", "asn1_parser/utils/size.py:FLOAT_MIN"]}
{"id": "C26", "title": "Accepted comments cannot contain comment or unit brackets", "statement": "No comment text of an accepted module contains '[', ']' or '--'; consequently the unit prefix of generated comments can be separated from the text again.", "quantifier": "all modules, every position where a comment may stand", "why_tests_cant": "all strings and positions", "anchors": ["asn1_parser/asn1/processor.py:check_comment", "asn1_parser/generators/generator.py:Generator._convert_sequence_to_c"]}
{"id": "C27", "title": "The cFS message ID encodes the CCSDS identification exactly", "statement": "For in-range fields the value in the generated <NAME>_MID define is version*2^13 + type*2^12 + secondary-header-flag*2^11 + APID, whatever the order of the components; omitted components count as 0, it fits 16 bits, and the four fields can be read back from the printed hexadecimal number.", "quantifier": "all in-range field values, all orders and subsets of components", "why_tests_cant": "2^16 values times orders, plus the text level", "anchors": ["asn1_parser/generators/cfs/generator.py:CFSGenerator._ccsds_primary_header_to_msg_id", "asn1_parser/generators/cfs/generator.py:CFSGenerator._process_with_components"]}
{"id": "C28", "title": "Out-of-range identification fields are rejected", "statement": "A packet identification whose version, flags or APID does not fit its field is rejected and never changes another field of the message ID.", "quantifier": "all field values", "why_tests_cant": "all values", "anchors": ["asn1_parser/generators/cfs/generator.py:CFSGenerator._ccsds_primary_header_to_msg_id"]}
{"id": "C29", "title": "Message IDs are unique", "statement": "Two different packets of an accepted bundle never get the same message ID.", "quantifier": "all bundles", "why_tests_cant": "all pairs of packets; documented as verified by the tool", "anchors": ["docs/source/2-content.rst", "asn1_parser/generators/cfs/generator.py:CFSGenerator._with_components_handling"]}
{"id": "C30", "title": "cFS defines carry each component value once, under distinct names", "statement": "For each WITH COMPONENTS clause the generated msgids header contains, in textual order, one define per leaf component with that component's value (and one MID define per primary header), and no name is defined twice.", "quantifier": "all clauses of any depth", "why_tests_cant": "all nestings and names", "anchors": ["asn1_parser/generators/cfs/generator.py:CFSGenerator._process_with_components"]}
{"id": "C31", "title": "Generated file names do not collide and stay in the output folder", "statement": "For distinct module names the files written by one command are pairwise distinct, have distinct include guards, and lie directly in the output folder.", "quantifier": "all bundles", "why_tests_cant": "all names allowed by the grammar", "anchors": ["asn1_parser/c_printer.py:CPrinter.print_to_file", "asn1_parser/c_printer.py:CPrinter.generate_cfs_circular_import_guard", "asn1_parser/generators/cfs/generator.py:CFSGenerator.get_msg_filename"]}
{"id": "C32", "title": "Every generated include names a generated file", "statement": "Every quoted include in a generated header names a header file written by the same run.", "quantifier": "all validated bundles; the cfs, c and binary commands", "why_tests_cant": "all import graphs", "anchors": ["asn1_parser/generators/cfs/generator.py:CFSGenerator.generate_cfs", "asn1_parser/generators/c/generator.py:CGenerator.generate_c", "asn1_parser/generators/binary/generator.py:BinaryGenerator.generate_binary"]}
{"id": "C33", "title": "C types are declared before use", "statement": "In every generated header, the type of each struct field is a C or stdint type, or was declared by a typedef earlier in the same header or in a directly included one.", "quantifier": "all validated bundles", "why_tests_cant": "all orders, imports and kinds of definitions", "anchors": ["asn1_parser/generators/generator.py:Generator._convert_sequence_to_c", "asn1_parser/generators/cfs/module_sorter.py:ModuleSorter.get_definitions_sorted_by_dependency"]}
{"id": "C34", "title": "ASN.1 names stay distinct in C", "statement": "Distinct ASN.1 names (types, members, modules) are mapped to distinct C identifiers, the instance name of a type differs from the type's name, and upper-cased define prefixes of distinct types differ.", "quantifier": "all pairs of names allowed by the grammar", "why_tests_cant": "all pairs of strings", "anchors": ["asn1_parser/c_printer.py:CPrinter.asn1_to_c_style_naming", "asn1_parser/utils/string.py:lowerize"]}
{"id": "C35", "title": "The C initialiser mirrors the WITH COMPONENTS clause", "statement": "The initialiser text generated for a WITH COMPONENTS clause contains exactly the clause's keys, nesting and values in textual order: the clause can be reconstructed from the text.", "quantifier": "all clauses of any depth", "why_tests_cant": "unbounded nesting; text level", "anchors": ["asn1_parser/generators/c/generator.py:CGenerator._process_with_components", "asn1_parser/generators/c/generator.py:CGenerator._process_start_with_component"]}
{"id": "C36", "title": "A generated .c file includes its header", "statement": "Whenever a generated .c file contains an initialiser it also includes the header declaring the initialised type.", "quantifier": "all modules", "why_tests_cant": "depends on the order and kinds of all definitions of the module", "anchors": ["asn1_parser/c_data.py:CData.extend_with_cdata", "asn1_parser/generators/c/generator.py:CGenerator._with_components_handling"]}
{"id": "C37", "title": "Integers are packed exactly", "statement": "For every integer component of 1, 2, 4 or 8 bytes, the bytes written decode (in the selected endianness) to the component's value, their number is the size of the type, little-endian output is the reverse of big-endian output, and a value outside the type is rejected.", "quantifier": "all values, sizes, signs and both byte orders", "why_tests_cant": "2^64 values", "anchors": ["asn1_parser/generators/binary/generator.py:BinaryGenerator._component_to_bytes"]}
{"id": "C38", "title": "Reals are packed as IEEE 754", "statement": "For every REAL component the bytes written are the IEEE 754 encoding of the value (double: exact round trip; float: the nearest single, overflow rejected).", "quantifier": "all doubles", "why_tests_cant": "2^64 values", "anchors": ["asn1_parser/generators/binary/generator.py:BinaryGenerator._component_to_bytes"]}
{"id": "C39", "title": "The binary image is the struct image", "statement": "The .bin file of a packet is the concatenation of the encodings of the members of the packet's struct in declaration order.", "quantifier": "all packets with WITH COMPONENTS clauses", "why_tests_cant": "all orders and subsets of components", "anchors": ["asn1_parser/generators/binary/generator.py:BinaryGenerator._with_components_handling", "asn1_parser/generators/binary/generator.py:BinaryGenerator._values_to_bytes_list"]}
{"id": "C40", "title": "No component value is lost in the binary output", "statement": "Every WITH COMPONENTS clause of a module contributes its bytes to some written .bin file.", "quantifier": "all modules", "why_tests_cant": "all numbers and placements of clauses", "anchors": ["asn1_parser/c_data.py:CData.add_binary_init", "asn1_parser/generators/binary/generator.py:BinaryGenerator._with_components_handling"]}
{"id": "C41", "title": "COSMOS items list the leaves of the message in order", "statement": "For every message whose types resolve, the COSMOS packet has one item per leaf member, in depth-first declaration order, with the leaf's name, width, unit and endianness flag.", "quantifier": "all messages, any nesting", "why_tests_cant": "unbounded nesting", "anchors": ["asn1_parser/generators/cosmos/generator.py:COSMOSGenerator._create_telemetry_item_data"]}
{"id": "C42", "title": "COSMOS ID values are the WITH COMPONENTS values of the message", "statement": "A leaf is an ID item with value v exactly if the WITH COMPONENTS clauses on its path fix it to v, independently of which other messages are generated in the same run.", "quantifier": "all messages, all lists of requested messages", "why_tests_cant": "depends on the whole history of the run", "anchors": ["asn1_parser/generators/cosmos/generator.py:COSMOSGenerator._create_telemetry_item_data", "asn1_parser/generators/cosmos/generator.py:COSMOSGenerator.generate_cosmos"]}
{"id": "C43", "title": "Regenerating is idempotent", "statement": "Running the same command again with the same inputs leaves the same file contents.", "quantifier": "all inputs, any number of runs", "why_tests_cant": "histories of runs", "anchors": ["asn1_parser/c_printer.py:CPrinter.print_to_file", "asn1_parser/generators/cosmos/generator.py:COSMOSGenerator.generate_cosmos"]}
{"id": "C44", "title": "COSMOS resolves a type to its unique definition", "statement": "The type of a member is resolved to the only definition of that name reachable through imports, reached over any number of import paths, and an error is raised if there is none; the search ends exactly if no cycle of imports is reached.", "quantifier": "all import graphs (diamonds and cycles included)", "why_tests_cant": "all graphs", "anchors": ["asn1_parser/generators/cosmos/generator.py:COSMOSGenerator._get_definitions_recurs", "asn1_parser/generators/cosmos/generator.py:COSMOSGenerator._get_definition"]}
{"id": "C45", "title": "Only constrained items are COSMOS ID items", "statement": "An item without a fixed value is never rendered as an ID item.", "quantifier": "all packets", "why_tests_cant": "all types", "anchors": ["asn1_parser/generators/cosmos/templates.py:cosmos_telemetry"]}
{"id": "C46", "title": "Invalid input leaves the output folder untouched", "statement": "If a cfs, c or binary command rejects the bundle while validating it, it exits with status 1 without writing a file, and the generated files of an accepted bundle depend only on the bundle and the options.", "quantifier": "all inputs", "why_tests_cant": "all failing inputs", "anchors": ["asn1_parser/main.py:main", "asn1_parser/asn1/asn1_bundle_builder.py:ASN1BundleBuilder.build_from_cfs_config"]}
{"id": "C47", "title": "The note on simple types names exactly the modules using them", "statement": "The set of modules recorded as users of a type is exactly the set of modules having a SEQUENCE or CHOICE member of that type without WITH COMPONENTS clause, whatever the order of modules.", "quantifier": "all bundles", "why_tests_cant": "all placements of uses", "anchors": ["asn1_parser/asn1/asn1_bundle_builder.py:ASN1BundleBuilder.build", "asn1_parser/asn1/asn1_bundle_builder.py:ASN1BundleBuilder._parse_for_simple_defs"]}
{"id": "C48", "title": "COSMOS item lines can be read back", "statement": "Each rendered item line is one line whose fields (keyword, name, width, type, value, quoted comment, endianness) can be recovered from the text.", "quantifier": "all item names, widths, values and comments accepted by the tool", "why_tests_cant": "all strings", "anchors": ["asn1_parser/generators/cosmos/templates.py:cosmos_telemetry"]}
{"id": "C49", "title": "Exactly the valid modules are accepted", "statement": "A grammatical module passes the parsing checks if and only if it is valid: clean comments, ordered ranges, no NULL, POSIX names with the POSIX range, gap-free enumerations and only known type names.", "quantifier": "all grammatical modules", "why_tests_cant": "both directions over all modules", "anchors": ["asn1_parser/asn1/processor.py:model_processor_check_used_types_defined", "asn1_parser/asn1/parser.py:Asn1Parser.parse_from_files"]}
{"id": "C50", "title": "Exactly the valid bundles are accepted", "statement": "The cfs, c and binary commands accept a list of grammatical modules if and only if every module is valid, the module names are distinct and those given on the command line, imports resolve, the component keys of sequence members exist and type names are unique; the cosmos command accepts exactly under the subset of these conditions that it checks.", "quantifier": "all lists of grammatical modules", "why_tests_cant": "both directions over all bundles", "anchors": ["asn1_parser/asn1/asn1_bundle_builder.py:ASN1BundleBuilder.build_from_cfs_config", "asn1_parser/asn1/validation/asn1_bundle_validator.py:ASN1BundleValidator.validate_bundle"]}
{"id": "C51", "title": "Only grammatical modules are read", "statement": "Whatever text is read as a module, the module is grammatical: names match the name rules, comments and units use their character classes, lists are not empty, float values are IEEE doubles. Every other property assumes this of its modules.", "quantifier": "all texts", "why_tests_cant": "all strings, including texts that are barely accepted", "anchors": ["asn1_parser/asn1/grammar.py", "asn1_parser/asn1/parser.py:Asn1Parser.parse_from_files"]}
{"id": "C52", "title": "The grammar reads exactly the spellings of a module", "statement": "A text is read as a module if and only if it spells the module: the keywords, names, types, values and comments of the module in order, with blanks only where they are allowed. No text spells two modules.", "quantifier": "all texts and modules", "why_tests_cant": "both directions over all texts; backtracking and ordered choice make it easy to lose spellings", "anchors": ["asn1_parser/asn1/grammar.py"]}
{"id": "C53", "title": "Which modules can be written", "statement": "The modules that some text is read as are exactly the grammatical ones whose floats are nearest to a decimal number, whose comments do not begin with a space, a unit or the endianness mark not recorded as such, and that have no comment on absent imports.", "quantifier": "all modules", "why_tests_cant": "existence of a text for every module", "anchors": ["asn1_parser/asn1/grammar.py"]}
{"id": "C54", "title": "Comments do not change the definitions", "statement": "Replacing what stands after \"--\" on a line by another text of one line does not change the definitions read.", "quantifier": "all texts and comments", "why_tests_cant": "all texts around and in the comment", "anchors": ["asn1_parser/asn1/grammar.py:Asn1Comment"]}
{"id": "C55", "title": "Runs start from the modules spelt in the given files", "statement": "If every input file spells a module, the run is the command on these modules in the order of the arguments; if a file is missing, is not UTF-8 or spells no module, the run fails and no output is touched. Files are opened and decoded in the order of the arguments before any is parsed: the first missing file gives an AssertionError, the first file that is not UTF-8 a UnicodeDecodeError.", "quantifier": "all commands, arguments, input files and states of the disk", "why_tests_cant": "all combinations of files and arguments", "anchors": ["asn1_parser/asn1/parser.py:Asn1Parser.parse_from_files", "asn1_parser/main.py:main"]}
{"id": "C56", "title": "Names on the command line are split at commas", "statement": "The lists of telemetry and telecommand modules are the pieces between commas, and any list of names without commas can be given.", "quantifier": "all argument texts", "why_tests_cant": "all strings", "anchors": ["asn1_parser/main.py:main"]}
{"id": "C57", "title": "Generated headers, read as C, declare what the definitions say", "statement": "Read as C, the header that cfs, c or binary writes for a module has the include guard of the module's name, includes the headers of the imported modules, includes <stdint.h> exactly when a struct field needs it, and declares, each definition after those it uses, the packed struct, packed enumeration or union that the ASN.1 definition says: field names, C types, bit-field widths and array lengths from the members, enumerators from the items.", "quantifier": "all grammatical module sets, commands, initial folders and runs that succeed", "why_tests_cant": "all module sets; the expected files of the tests show only a few headers", "anchors": ["asn1_parser/generators/generator.py:Generator._convert_sequence_to_c", "asn1_parser/generators/generator.py:Generator._convert_enumerated_to_c", "asn1_parser/generators/generator.py:Generator._convert_choice_to_c", "asn1_parser/c_printer.py"]}
{"id": "C58", "title": "The c command succeeds exactly for processable input", "statement": "The run succeeds if and only if the modules pass validation, neither modules nor types depend on each other cyclically, and every member of a SEQUENCE has a C type: BOOLEAN, strings, INTEGER and REAL with a range that fits, a named type with such a definition, or a SEQUENCE, CHOICE or ENUMERATED (arrays of INTEGER or REAL have none).", "quantifier": "all grammatical module sets, module lists and initial folders", "why_tests_cant": "an if-and-only-if over all module sets; tests show single successes and failures", "anchors": ["asn1_parser/generators/c/generator.py:CGenerator.generate_c", "asn1_parser/generators/generator.py:Generator._convert_sequence_to_c", "asn1_parser/generators/generator.py:Generator._map_simple_types_to_c"]}
{"id": "C59", "title": "The cfs command succeeds exactly for processable input with encodable headers and sized simple types", "statement": "The run succeeds if and only if the input is processable (C58), every component clause's primary headers can be encoded, and every simple type that some member uses has a size.", "quantifier": "all grammatical module sets, module lists and initial folders", "why_tests_cant": "an if-and-only-if over all module sets", "anchors": ["asn1_parser/generators/cfs/generator.py:CFSGenerator.generate_cfs", "asn1_parser/generators/cfs/generator.py:CFSGenerator._with_components_handling"]}
{"id": "C60", "title": "The binary command succeeds exactly for processable input whose clauses have an image", "statement": "The run succeeds if and only if the input is processable (C58) and, in each module with a component clause, every member without clause has a bit size, an endianness is given, and each clause has a binary image (its components are members of SEQUENCEs of the same module whose types have an encoding that the values fit).", "quantifier": "all grammatical module sets, module lists, endiannesses and initial folders", "why_tests_cant": "an if-and-only-if over all module sets and values", "anchors": ["asn1_parser/generators/binary/generator.py:BinaryGenerator.generate_binary", "asn1_parser/generators/binary/generator.py:BinaryGenerator._with_components_handling", "asn1_parser/generators/binary/generator.py:BinaryGenerator._component_to_bytes"]}
{"id": "C61", "title": "The cosmos command succeeds exactly for processable input", "statement": "For distinct module names the run succeeds if and only if the modules pass validation, every requested message is a SEQUENCE of the module named whose members lead to items with a size, no cycle of imports is reached where a type has to be looked up, and an application process identifier is fixed to a number.", "quantifier": "all grammatical module sets, modules, messages, target names and initial folders", "why_tests_cant": "an if-and-only-if over all module sets and import graphs", "anchors": ["asn1_parser/generators/cosmos/generator.py:COSMOSGenerator.generate_cosmos", "asn1_parser/generators/cosmos/generator.py:COSMOSGenerator._create_telemetry_item_data", "asn1_parser/generators/cosmos/generator.py:COSMOSGenerator._get_definition"]}
{"id": "C62", "title": "Exactly the documented command lines are accepted", "statement": "The command line is accepted if and only if it is the name of a command followed by options with values (separate or joined, spelt out or abbreviated without ambiguity) and one contiguous run of input paths, with every required option present and every --endianness one of the choices; the last occurrence of an option counts and --output-dir has the command's default.", "quantifier": "all lists of words", "why_tests_cant": "all orders, repetitions, abbreviations and spellings of options", "anchors": ["asn1_parser/cli/cli_arg_parser.py:cli_args_parser", "asn1_parser/cli/cli_arg_parser.py:create_args_parser"]}
{"id": "C63", "title": "A whole run changes only the files of the run", "statement": "A command line that is not accepted and input files that spell no modules leave the file system as it is; otherwise cfs, c and binary write the files of the run on the spelt modules, each under its name in the output folder, cosmos appends to one file, and every other file stays as it was.", "quantifier": "all command lines and file systems", "why_tests_cant": "all command lines, file contents and earlier outputs", "anchors": ["asn1_parser/main.py:main", "asn1_parser/c_printer.py:CPrinter.print_to_file", "asn1_parser/generators/cosmos/generator.py:COSMOSGenerator.generate_cosmos"]}
{"id": "C64", "title": "Only files directly in the output folder change", "statement": "Every file that a run creates or changes lies directly in the folder given by --output-dir.", "quantifier": "all command lines and file systems", "why_tests_cant": "all command lines and names", "anchors": ["asn1_parser/main.py:main", "asn1_parser/c_printer.py:CPrinter.print_to_file", "asn1_parser/generators/cosmos/generator.py:COSMOSGenerator.generate_cosmos"]}
{"id": "C65", "title": "A run succeeds exactly for input files that spell processable modules", "statement": "Given an accepted command line, the run succeeds if and only if every input file exists and spells a module and the modules are processable by the command (C58-C60, C88).", "quantifier": "all command lines and file systems", "why_tests_cant": "an if-and-only-if over all texts", "anchors": ["asn1_parser/main.py:main"]}
{"id": "C66", "title": "Generated headers declare every name once", "statement": "A C file that includes the headers generated for some modules of a run declares no ordinary identifier (typedef, enumerator, variable) twice, and no struct or union has two fields of the same name.", "quantifier": "all successful runs and all selections of modules", "why_tests_cant": "all combinations of names across definitions and modules", "anchors": ["asn1_parser/generators/generator.py:Generator._convert_sequence_to_c", "asn1_parser/generators/generator.py:Generator._convert_enumerated_to_c", "asn1_parser/generators/generator.py:Generator._convert_choice_to_c"]}
{"id": "C67", "title": "No generated identifier is a keyword of C", "statement": "No typedef, tag, field, enumerator or variable declared by a generated header is a keyword of C.", "quantifier": "all successful runs", "why_tests_cant": "all names", "anchors": ["asn1_parser/generators/generator.py:Generator._convert_sequence_to_c", "asn1_parser/generators/generator.py:Generator._convert_enumerated_to_c", "asn1_parser/generators/generator.py:Generator._convert_choice_to_c"]}
{"id": "C68", "title": "Bit-fields and arrays of generated structs are valid C", "statement": "Every bit-field of a generated struct is no array, has at least one bit and at most as many as its type, and every array has at least one element.", "quantifier": "all successful runs", "why_tests_cant": "all ranges, lengths and types", "anchors": ["asn1_parser/generators/generator.py:Generator._convert_sequence_to_c", "asn1_parser/generators/generator.py:Generator._map_simple_types_to_c"]}
{"id": "C69", "title": "COSMOS telemetry files read back as the leaves of the messages", "statement": "A reader of the COSMOS file format reads every file written by a run: the packets already in the file, followed by one packet per message with its target, name and comment and one item per leaf of the message, with name, kind of item, width, type, comment, byte order, states, limits and unit.", "quantifier": "all successful cosmos runs and all readable previous contents of the file", "why_tests_cant": "all modules, nestings, clauses and comments", "anchors": ["asn1_parser/generators/cosmos/templates.py:cosmos_telemetry", "asn1_parser/generators/cosmos/generator.py:COSMOSGenerator.generate_cosmos"]}
{"id": "C70", "title": "The items of a COSMOS packet have different names", "statement": "No two items of a packet have the same name, not even if capital and small letters are not distinguished.", "quantifier": "all successful cosmos runs", "why_tests_cant": "all nestings of messages", "anchors": ["asn1_parser/generators/cosmos/templates.py:cosmos_telemetry", "asn1_parser/generators/cosmos/generator.py:COSMOSGenerator.generate_cosmos"]}
{"id": "C71", "title": "The items of a COSMOS packet are valid", "statement": "Every item has at least one bit and a width COSMOS accepts for its type, every array consists of one or more elements, and the identification of an integer item is an integer that fits its width.", "quantifier": "all successful cosmos runs", "why_tests_cant": "all ranges, lengths, types and fixed values", "anchors": ["asn1_parser/generators/cosmos/templates.py:cosmos_telemetry", "asn1_parser/generators/cosmos/generator.py:COSMOSGenerator.generate_cosmos", "asn1_parser/generators/cosmos/generator.py:COSMOSGenerator._create_telemetry_item_data"]}
{"id": "C72", "title": "A failed run leaves the output folder as it was", "statement": "A run that ends with an error does not change the output folder.", "quantifier": "all inputs, output folders and commands", "why_tests_cant": "all orders of modules and all modules at which a run can fail", "anchors": ["asn1_parser/generators/cfs/generator.py:CFSGenerator.generate_cfs", "asn1_parser/generators/c/generator.py:CGenerator.generate_c", "asn1_parser/generators/binary/generator.py:BinaryGenerator.generate_binary", "asn1_parser/generators/cosmos/generator.py:COSMOSGenerator.generate_cosmos", "asn1_parser/main.py:main"]}
{"id": "C73", "title": "Every run ends", "statement": "A run of any command ends, with success or with an error, after a number of steps bounded by the number of modules and definitions.", "quantifier": "all inputs, output folders and commands", "why_tests_cant": "a test that does not end tells nothing, and all shapes of import and type graphs matter", "anchors": ["asn1_parser/generators/cfs/module_sorter.py:ModuleSorter.create_ordered_import_list", "asn1_parser/generators/cfs/module_sorter.py:ModuleSorter.get_definitions_sorted_by_dependency", "asn1_parser/generators/cosmos/generator.py:COSMOSGenerator._create_telemetry_item_data", "asn1_parser/generators/cosmos/generator.py:COSMOSGenerator._get_definitions_recurs", "asn1_parser/main.py:main"]}
{"id": "C74", "title": "Floats are read to the nearest double and printed as the shortest text that reads back", "statement": "A float in a source text is taken as the double nearest to the decimal number written, ties to even; that double is unique. The text put in the output files for it is a float text that reads back as the same double, has as few digits as any number read as that double, and among those with as few digits is nearest to it.", "quantifier": "all float texts of the grammar, of any length and exponent, and all doubles", "why_tests_cant": "there are unboundedly many decimal texts and 2^64 doubles; halfway cases, powers of two and subnormals need proof", "anchors": ["asn1_parser/asn1/grammar.py", "asn1_parser/generators/c/generator.py:CGenerator._process_with_components", "asn1_parser/generators/cosmos/generator.py:COSMOSGenerator._create_telemetry_item_data"]}
{"id": "C75", "title": "The initialisers in the C sources fit the structs of the headers", "statement": "Every variable that a generated .c file defines has a struct type declared in the generated headers; its designated initialisers name fields of that struct, give an integer or floating constant to fields of arithmetic type and braces to fields that are structs, at every depth.", "quantifier": "all grammatical inputs the c command accepts, all clauses at any depth", "why_tests_cant": "nesting of clauses and sequences is unbounded and types may come from any imported module; tests compile a few fixed models", "anchors": ["asn1_parser/generators/c/generator.py:CGenerator._with_components_handling", "asn1_parser/generators/c/generator.py:CGenerator._process_start_with_component", "asn1_parser/generators/c/generator.py:CGenerator._process_with_components"]}
{"id": "C76", "title": "Generated headers define no variables", "statement": "A generated header declares types only, no object, so that several sources of one program may include it.", "quantifier": "all grammatical inputs the cfs, c and binary commands accept", "why_tests_cant": "whether a header defines an object depends on every definition and clause of an arbitrary module", "anchors": ["asn1_parser/generators/generator.py:Generator", "asn1_parser/generators/c/generator.py:CGenerator._with_components_handling"]}
{"id": "C77", "title": "The C object and the binary image of a clause are the same bytes", "statement": "On a machine with 32-bit int, IEEE 754 floats and the byte order asked for, the variable that the c command initialises for a WITH COMPONENTS clause, laid out by the packed structs of the generated headers, consists of exactly the bytes that the binary command writes to the .bin file of that clause.", "quantifier": "all grammatical inputs that both commands accept, both byte orders, all clauses at any depth", "why_tests_cant": "it relates two generators on unbounded nestings and on all integer and floating values including rounding; tests compare each output with a fixed file", "anchors": ["asn1_parser/generators/c/generator.py:CGenerator._process_with_components", "asn1_parser/generators/binary/generator.py:BinaryGenerator._component_to_bytes", "asn1_parser/generators/binary/generator.py:BinaryGenerator._values_to_bytes_list", "asn1_parser/generators/generator.py:Generator._convert_sequence_to_c"]}
{"id": "C78", "title": "COSMOS recognises packets by the cFS message ID", "statement": "When the cfs and the cosmos command are run on the same modules, a packet whose first 16 bits are the number in a message's _MID define has the values of the identification items in the packet header of that message in the COSMOS file, and if the clause gives every integer field of the packet identification, no other 16 bits have.", "quantifier": "all grammatical inputs that both commands accept, all messages that start with a CCSDS packet identification at any depth of clauses, all packets", "why_tests_cant": "it relates the texts of two generators, which tests compare with one fixed file each, for all values of the four fields and all nestings of the header", "anchors": ["asn1_parser/generators/cfs/generator.py:CFSGenerator._ccsds_primary_header_to_msg_id", "asn1_parser/generators/cfs/generator.py:CFSGenerator._process_with_components", "asn1_parser/generators/cosmos/generator.py:COSMOSGenerator._create_telemetry_item_data"]}
{"id": "C79", "title": "What a run does to the directory tree", "statement": "A rejected command line, unreadable input files and an invalid bundle leave the directory tree as it was, without an output folder. Otherwise cfs, c and binary create the missing folders on the way to the output folder, also if generation fails later, put exactly the files of the run into it and change no other file. The run ends with an error of the operating system exactly if a file is in the way of the folder or a folder has the name of a generated file.", "quantifier": "all directory trees, current folders, command lines, spellings of the output path (relative, absolute, with . and .. and repeated slashes) and input texts", "why_tests_cant": "the tests use one fresh output folder with a fixed path", "anchors": ["asn1_parser/main.py:main", "asn1_parser/asn1/parser.py:Asn1Parser.parse_from_files", "asn1_parser/generators/cfs/generator.py:CFSGenerator.generate_cfs", "asn1_parser/generators/c/generator.py:CGenerator.generate_c", "asn1_parser/generators/binary/generator.py:BinaryGenerator.generate_binary"]}
{"id": "C80", "title": "cosmos appends to one file of the tree, and no run deletes anything", "statement": "cosmos leaves the directory tree as it was if the packets cannot be made; otherwise it creates the folder of the file named by --output-file-name and appends the packets to that file, and changes no other file. No run of any command deletes a file or a folder.", "quantifier": "all directory trees, current folders, command lines, output paths and file names with or without slashes, and input texts", "why_tests_cant": "the tests write into one fresh folder; that nothing else changes or disappears is a statement about all places of all trees", "anchors": ["asn1_parser/generators/cosmos/generator.py:COSMOSGenerator.generate_cosmos", "asn1_parser/main.py:main"]}
{"id": "C81", "title": "Which faults of the input are reported with a message", "statement": "With cfs, c and binary, modules that are each in order but not a valid bundle end the run with the program's message, except that an import from a module that is not given ends it with a SyntaxError unless module names or listed names are duplicated. The first module that is not in order decides: if only undefined types, NULL or ranges of POSIX types are wrong the message is printed, whatever UTF-8 text the later files contain; if only comments, ranges or enumeration numbers are wrong the run ends with an uncaught exception. A file that is not UTF-8 ends the run with a UnicodeDecodeError whatever the other files contain. The message appears only for rejected inputs and never with cosmos, and the directory tree is unchanged.", "quantifier": "all directory trees, command lines, numbers of input files and modules with any number of such faults", "why_tests_cant": "the tests try single faults one at a time in single files; which of several faults decides, and that no other run prints the message, needs all inputs", "anchors": ["asn1_parser/main.py:main", "asn1_parser/asn1/asn1_bundle_builder.py:ASN1BundleBuilder.build", "asn1_parser/asn1/processor.py:model_processor_check_used_types_defined", "asn1_parser/asn1/validation/asn1_bundle_validator.py:ASN1BundleValidator.validate_bundle"]}
{"id": "C82", "title": "The tokens are those of the grammar's regular expressions, and names are ASCII", "statement": "For every ASCII text, the names, units, comment texts, integers and floats recognised by the model are exactly what Python's backtracking regular expressions of the grammar (and textX's INT and STRICTFLOAT) match at that place, whatever \\d and \\w mean on other characters. In any text, a name consists of ASCII letters, ASCII digits and hyphens.", "quantifier": "all texts of any length, all characters before them, all classifications of non-ASCII characters", "why_tests_cant": "backtracking over texts of any length; a test cannot show that no shorter or other match exists", "anchors": ["asn1_parser/asn1/grammar.py", "asn1_parser/asn1/parser.py:Asn1Parser.parse_from_text"]}
{"id": "C83", "title": "The parser of the model is the grammar as it is written", "statement": "For every ASCII text the rules of grammar.py, with the PEG semantics of textX (ordered alternatives, greedy repetitions, blanks skipped unless a rule says noskipws), have exactly one result: the object of the module that the model reads, with all attributes in the order of the text, or a syntax error where the model reads none. Accepted texts consist of ASCII characters; so the model, which reads bytes, decides every Unicode text after UTF-8 encoding.", "quantifier": "all texts of any length and nesting, all classifications of non-ASCII characters", "why_tests_cant": "texts of any length and nesting depth; ordered choice and greedy repetition can hide a reading that no test contains", "anchors": ["asn1_parser/asn1/grammar.py", "asn1_parser/asn1/parser.py:Asn1Parser.parse_from_text"]}
{"id": "C84", "title": "The order of the input files does not matter", "statement": "If a run of cfs, c or binary succeeds, then the run on the same modules given in any other order, with the names of --asn1-modules in any other order, succeeds too, and every file of the output folder has the same content. A cosmos run gives the same result if no two modules have the same name; of two modules with the same name it takes the first, so there the order matters.", "quantifier": "all lists of grammatical modules, all permutations of them and of the listed names, all previous contents of the folder", "why_tests_cant": "n modules have n! orders and the import graph is arbitrary; dictionaries, sets and the topological sort are order-dependent", "anchors": ["asn1_parser/asn1/asn1_bundle_builder.py:ASN1BundleBuilder.build", "asn1_parser/generators/cfs/module_sorter.py:ModuleSorter.create_ordered_import_list", "asn1_parser/generators/cfs/generator.py:CFSGenerator.generate_cfs", "asn1_parser/generators/cosmos/generator.py:COSMOSGenerator.generate_cosmos", "asn1_parser/main.py:main"]}
{"id": "C85", "title": "Further modules do not change the files of a module", "statement": "If c or binary succeeds on some modules and on a larger set of modules, every file of a module of the smaller set has the same content after both runs. For cfs this holds of modules whose simple types are not used in the further modules (the comment of a simple type names the modules using it). A part of the modules that imports nothing from the rest is processed whenever the whole is. A cosmos run ends in the same way and leaves the same folder with and without further valid modules, if no two modules have the same name.", "quantifier": "all grammatical modules, all larger sets of modules, all previous contents of the folder", "why_tests_cant": "the further modules are arbitrary and there are unboundedly many of them; a test fixes both sets", "anchors": ["asn1_parser/asn1/asn1_bundle_builder.py:ASN1BundleBuilder.build", "asn1_parser/generators/cfs/generator.py:CFSGenerator.generate_cfs", "asn1_parser/generators/c/generator.py:CGenerator.generate_c", "asn1_parser/generators/binary/generator.py:BinaryGenerator.generate_binary", "asn1_parser/generators/cosmos/generator.py:COSMOSGenerator.generate_cosmos"]}
{"id": "C86", "title": "The commands declare the same types", "statement": "The header of a module contains the same declarations of types in the same order, character for character, and includes the same system headers, whichever of the commands cfs, c and binary wrote it, and whatever further modules the run read. Only the guard, the names of included files, the notes on simple types and the variables of command c differ. Read as C, with comments that do no harm, both headers declare the same types.", "quantifier": "all grammatical modules, all two of the three commands, all larger sets of modules, all previous contents of the folders", "why_tests_cant": "it compares the outputs of two runs on arbitrary modules; a test compares the outputs on the modules it has", "anchors": ["asn1_parser/generators/cfs/generator.py:CFSGenerator.generate_cfs", "asn1_parser/generators/c/generator.py:CGenerator.generate_c", "asn1_parser/generators/binary/generator.py:BinaryGenerator.generate_binary"]}
{"id": "C87", "title": "From input files to output files", "statement": "If the program finishes on a directory tree, the input files spell modules such that afterwards, in the output folder the command line names: the header of each module, read as C, declares what the definitions of the module say (cfs, c, binary); the .bin file of each sequence with a clause holds the image of its last clause (binary with an endianness); the msgids file of each module defines the message ID of each clause that fixes one (cfs); the telemetry file has, after the packets it had, one packet per message with one item per leaf (cosmos).", "quantifier": "all directory trees, working directories and command lines on which the program finishes", "why_tests_cant": "it composes reading, checking, generating and placing files for every tree and every command line; tests exercise these stages on fixed inputs", "anchors": ["asn1_parser/main.py:main", "asn1_parser/asn1/parser.py:Asn1Parser.parse_from_files", "asn1_parser/generators/cfs/generator.py:CFSGenerator.generate_cfs", "asn1_parser/generators/c/generator.py:CGenerator.generate_c", "asn1_parser/generators/binary/generator.py:BinaryGenerator.generate_binary", "asn1_parser/generators/cosmos/generator.py:COSMOSGenerator.generate_cosmos"]}
{"id": "C88", "title": "The values of COSMOS items, whatever the clauses say", "statement": "Number the members of all messages of a run in the order in which they are met. Below a member without a WITH COMPONENTS clause of its own the clause it is given holds; below a member with one hold its components together with the clauses given to this and all earlier occurrences of the member, in this message or an earlier one. Every item shows the only value it is given by this rule, which determines all values; a later message does not change the text of an earlier one; and the command succeeds exactly for valid modules whose messages lead to items with a size and whose application process identifiers are given numbers.", "quantifier": "all grammatical module sets, modules, lists of messages, target names and initial folders, without restriction on the clauses", "why_tests_cant": "the value of an item depends on all messages generated before; tests fix the messages and clauses", "anchors": ["asn1_parser/generators/cosmos/generator.py:COSMOSGenerator._create_telemetry_item_data", "asn1_parser/generators/cosmos/generator.py:COSMOSGenerator.generate_cosmos"]}
{"id": "C89", "title": "COSMOS telemetry files can be read, whatever the clauses say", "statement": "If the telemetry file of the folder reads as packets, so does the file a successful run leaves: the packets it contained, followed by one packet per message with one item per leaf, with its name, role, size, type, comment, byte order, states, limits and units, and with the value the rule of C88 gives it. The items are valid exactly if the values lie in the range of the leaves.", "quantifier": "all grammatical module sets, modules, lists of messages, target names and initial folders, without restriction on clauses and module names", "why_tests_cant": "reading back a file depends on every character of all comments and values and on all earlier messages", "anchors": ["asn1_parser/generators/cosmos/generator.py:COSMOSGenerator._create_telemetry_item_data", "asn1_parser/generators/cosmos/generator.py:COSMOSGenerator.generate_cosmos"]}
{"id": "C90", "title": "The message about a rejected input is true", "statement": "The program prints a message exactly if a run ends by reporting a fault. The message then names a fault of the input: of the first module that has one (an undefined type, a NULL type, a POSIX type with another range), the modules before being in order; or, all modules being in order, of the bundle: names or modules given repeatedly, the names a module imports from another that does not define them, a key that is no member of the type a clause is for, a clause for a type that is not exactly one sequence (the message then says that the type is not defined, which need not be so), a type defined twice and where, or the modules listed but not given, or given but not listed. Lists of names contain exactly the names concerned, each once.", "quantifier": "all directory trees, working directories and command lines, and all orders in which Python iterates sets", "why_tests_cant": "there are unboundedly many faulty inputs, inputs with several faults, and orders of sets", "anchors": ["asn1_parser/main.py:main", "asn1_parser/asn1/validation/asn1_bundle_validator.py:ASN1BundleValidator.validate_bundle", "asn1_parser/asn1/asn1_bundle_builder.py:ASN1BundleBuilder.build_from_cfs_config"]}
{"id": "C91", "title": "The text of grammar.py decides what is read", "statement": "The text of grammar.py, read as textX reads rules (string and regular expression matches, references, groups, assignments, repetitions, noskipws), gives rules that have exactly one result on every Unicode text: parsing always ends. That result is the object of the module the model reads, or a syntax error where the model reads none.", "quantifier": "all texts of any length and nesting, all classifications of characters by \\d and \\w; for the agreement with the model, texts without decimal digits of other scripts", "why_tests_cant": "that no rule can loop without reading a character, and that every text has a result, is a statement about texts of any length", "anchors": ["asn1_parser/asn1/grammar.py", "asn1_parser/asn1/parser.py:Asn1Parser.parse_from_text"]}
{"id": "C92", "title": "The order of the definitions in a module does not matter", "statement": "If a run succeeds, so does the run on modules that contain the same definitions in another order. The file appended to by cosmos is the same, and so are the binary images. The .h files consist of the same parts, one for each definition and place, in another order; so do the .c files.", "quantifier": "all inputs, all orders of the definitions of each module, all commands and output folders", "why_tests_cant": "the definitions of a module have unboundedly many orders, and the generators walk them with state that is carried from one to the next", "anchors": ["asn1_parser/generators/cosmos/generator.py:COSMOSGenerator.generate_cosmos", "asn1_parser/generators/c/generator.py:CGenerator.generate_c", "asn1_parser/generators/binary/generator.py:BinaryGenerator.generate_binary", "asn1_parser/generators/cfs/generator.py:CFSGenerator.generate_cfs"]}
{"id": "C93", "title": "Comments decide nothing", "statement": "Take modules whose comments contain neither brackets nor a comment mark, and the same modules without comments. Every command ends in the same way on both, with the same error if there is one, and leaves the same files. Their contents are equal byte for byte, except that the .h and .c file of a module have the module's own comments put in, and the COSMOS file has descriptions, units and byte orders put in. Binary images and message IDs are equal.", "quantifier": "all modules and comments, all commands and output folders, failing runs included", "why_tests_cant": "comments stand at unboundedly many places, and at each of them any text may stand", "anchors": ["asn1_parser/asn1/processor.py:check_comment", "asn1_parser/generators/generator.py:Generator._convert_sequence_to_c", "asn1_parser/c_printer.py:CPrinter.print_to_file", "asn1_parser/generators/cosmos/generator.py:COSMOSGenerator._create_telemetry_item_data"]}
{"id": "C94", "title": "Further definitions do not change the others", "statement": "Add definitions to the modules of an input, at any place. If generate-cosmos succeeds without them and the modules with them are valid, its file is the same. If generate-cfs, generate-c or generate-binary succeeds with them and the modules without them are valid, it succeeds without them and writes no further file; images written by both runs are the same, and the .h and .c files of the run with them consist of the parts of the run without them, in the same order, with the parts of the added definitions between them. Only include lines for standard headers, the include line of the .c file, an empty line, and the notes of simple types that added definitions use may differ besides.", "quantifier": "all modules, all added definitions at all places, all commands and output folders", "why_tests_cant": "the added definitions may be any, stand anywhere and be sorted anywhere, and the claim compares two runs", "anchors": ["asn1_parser/generators/cfs/module_sorter.py:ModuleSorter.get_definitions_sorted_by_dependency", "asn1_parser/generators/generator.py:Generator._convert_sequence_to_c", "asn1_parser/c_printer.py:CPrinter.print_to_file", "asn1_parser/generators/cosmos/generator.py:COSMOSGenerator._get_definitions_recurs"]}
{"id": "C95", "title": "Headers are written as specified, with all comments", "statement": "The header that generate-cfs, generate-c or generate-binary writes for a module is, character for character: the include guard of its name, the head comment with the comment of the module, <stdint.h> if a struct needs it, the comment of the imports and the includes of the imported modules, a note for each simple type (cfs: only for those that are used, with the modules using it), then for each definition, after those it uses, its comment and its struct, enumeration or union with the comments and units of all members and enumerators, the variables for WITH COMPONENTS clauses (c), and the end of the guard. No comment is lost except those of simple types, clauses and single imports.", "quantifier": "all modules and comments of the grammar, also comments that are no comments in C, all commands but cosmos", "why_tests_cant": "the text depends on every definition, comment and import of the module; tests compare a few files", "anchors": ["asn1_parser/c_printer.py:CPrinter.print_to_file", "asn1_parser/generators/generator.py:Generator._convert_sequence_to_c", "asn1_parser/generators/generator.py:Generator._convert_enumerated_to_c", "asn1_parser/generators/generator.py:Generator._convert_choice_to_c"]}
{"id": "C96", "title": "Names of types carry no meaning", "statement": "Giving the types other names, the same in all modules, changes nothing but the names, unless the names are those of built-in or POSIX types. generate-cosmos, for the renamed messages, appends the same text with the new names of the packets, or fails with the same error and leaves the same files. generate-cfs, generate-c and generate-binary succeed on the renamed modules if and only if they succeed on the given ones. The images are the same byte for byte, in files of the new names, and the message IDs are the same, under macros of the new names. With POSIX names it is false: INTEGER (0..255) may be called Uint8-t but not Uint16-t.", "quantifier": "all sets of modules of the grammar, all one-to-one renamings of the types that keep the reserved names, all commands", "why_tests_cant": "names are looked up, compared and sorted in every stage, and the number of models and renamings is unbounded", "anchors": ["asn1_parser/generators/cosmos/generator.py:COSMOSGenerator.generate_cosmos", "asn1_parser/generators/binary/generator.py:BinaryGenerator.generate_binary", "asn1_parser/generators/cfs/generator.py:CFSGenerator.generate_cfs", "asn1_parser/generators/generator.py:Generator._convert_sequence_to_c"]}
{"id": "C97", "title": "Binary images are the packets COSMOS expects", "statement": "If generate-binary and generate-cosmos are run on the same model, then the bytes of the .bin file of a message are, item by item and in the order of the items, the values the COSMOS file gives as identifications: each item takes its number of bits, read as an unsigned or signed integer or as an IEEE float in the byte order of the item, and no byte is left over if all members of the message are fixed.", "quantifier": "all models, all messages, both byte orders", "why_tests_cant": "two independent generators must agree on widths, signs, byte order, order of members and values, for every nesting and every value", "anchors": ["asn1_parser/generators/binary/generator.py:BinaryGenerator._with_components_handling", "asn1_parser/generators/binary/generator.py:BinaryGenerator._values_to_bytes_list", "asn1_parser/generators/cosmos/generator.py:COSMOSGenerator._create_telemetry_item_data", "asn1_parser/generators/cosmos/generator.py:COSMOSGenerator.generate_cosmos"]}
{"id": "C98", "title": "The order of the definitions in the generated C files", "statement": "In every .h file, and in every .c file of generate-c, the definitions of the module stand in the order of rounds: each round goes once through the remaining definitions in the order of the module and writes those whose types are built in, imported, or written before. The order is unique. Definitions stand after those they need. A module whose definitions are already in a possible order keeps it, and other names for the types do not change it.", "quantifier": "all successful runs of generate-cfs, generate-c and generate-binary, all modules", "why_tests_cant": "the order depends on the whole graph of types and the order of the module; the number of rounds is unbounded", "anchors": ["asn1_parser/generators/cfs/module_sorter.py:get_definitions_sorted_by_dependency", "asn1_parser/generators/generator.py:Generator._convert_sequence_to_c"]}
{"id": "C99", "title": "Generated headers can be included on their own", "statement": "A C file that includes any generated headers gets the declarations of these modules and of all modules they import from at any distance, each once, and each after those of the modules it imports from. What comes out is valid C, as far as names, types and fields go, exactly if the definitions of these modules are fit for C: distinct keys, no keywords, widths and lengths C allows, and types that become C types.", "quantifier": "all successful runs, all lists of included headers, all graphs of imports", "why_tests_cant": "graphs of imports have any shape and depth; the order in which include guards let the declarations through depends on the whole graph", "anchors": ["asn1_parser/generators/cfs/generator.py:CFSGenerator.generate_cfs", "asn1_parser/c_printer.py:CPrinter"]}
{"id": "C100", "title": "The printed outline tells exactly the outline of a module", "statement": "The text Asn1Module.pprint prints is the same for two modules exactly if these have the same name, the same imports with the same names, the same definitions by name and kind (CHOICE and ENUMERATED look the same), SEQUENCEs with the same keys, type names, ranges and WITH COMPONENTS clauses, down to the last digit of each value. Lost are exactly comments, sizes, the difference between a SEQUENCE OF and its elements, and the contents of CHOICE and ENUMERATED.", "quantifier": "all pairs of modules the grammar admits, clauses nested to any depth", "why_tests_cant": "that no two different outlines share a text is about pairs of modules of any size, with clauses of any depth and all integers and doubles as values", "anchors": ["asn1_parser/asn1/grammar_elements/asn1_module.py:Asn1Module.pprint", "asn1_parser/asn1/grammar_elements/components_item.py:ComponentsItem.pprint", "asn1_parser/asn1/grammar_elements/key_type_pair.py:KeyTypePair.pprint", "asn1_parser/asn1/grammar_elements/asn1_type.py:Asn1Type"]}
{"id": "C101", "title": "When a generated C source compiles", "statement": "The .c file that generate-c writes for a module has a variable for each WITH COMPONENTS clause. Together with the headers it includes it is valid C, as far as names, types, fields and initialisers go, exactly if the module has no clause at all, or if the last definition written that is no simple type has a clause (otherwise the include is missing), the module imports nothing (otherwise an include lacks its extension), no two declared names are the same, no name is a keyword, the members have types and widths C has, and the clauses give constants to numbers of SEQUENCEs only.", "quantifier": "all runs of generate-c that succeed, with any number of modules, all modules whose comments do no harm and in which only simple types have names such as Uint8-t, any contents of the folder before but files with the bare names of modules", "why_tests_cant": "the equivalence speaks of all modules and all nested clauses; compiling samples shows single cases of one direction", "anchors": ["asn1_parser/generators/c/generator.py:CGenerator.generate_c", "asn1_parser/generators/c/generator.py:CGenerator._process_with_components", "asn1_parser/generators/c/generator.py:CGenerator._with_components_handling", "asn1_parser/generators/generator.py:Generator._convert_sequence_to_c", "asn1_parser/c_printer.py:CPrinter"]}
{"id": "C102", "title": "The exception that ends a run tells the fault", "statement": "If reading the input ends with an exception that main does not catch and that the tool itself words, the run has changed no file, and the message tells a fault that is there: in the first module with a fault, before which everything is in order, the bounds of a reversed or infinite range, the key, the text and the first forbidden sign of a comment, numbers of an enumeration that do not add up, or one that takes the place of an earlier item; or, all modules being valid by themselves, the modules that one of them imports and that are not given. Only cosmos ends so for the inconsistencies the other commands report. Every faulty module is told about if its comments are in order and its enumeration numbers have places.", "quantifier": "all command lines, folders, files, modules with any number of definitions, clauses of any depth, and all orders in which Python iterates sets", "why_tests_cant": "a test compares one message with one expected text; that a message is never wrong about any input needs the checks and their texts to be related for all inputs", "anchors": ["asn1_parser/asn1/processor.py:asn1_type", "asn1_parser/asn1/processor.py:check_comment", "asn1_parser/asn1/processor.py:check_enumerated", "asn1_parser/asn1/asn1_bundle_builder.py:ASN1BundleBuilder._resolve_dependencies", "asn1_parser/asn1/asn1_bundle_builder.py:ASN1BundleBuilder.build_from_cosmos_config", "asn1_parser/main.py:main"]}
{"id": "C103", "title": "The exit code tells how the run ended", "statement": "The exit code is 0 exactly if the run was finished or argparse came to a word that asks for help (-h, -hh, --help or an abbreviation), in place of the command behind unknown options only, or among the words of a command behind arguments, unknown options and options with a value, with no ambiguous word in front of '--'. It is 2 exactly if the command line is not accepted and argparse came to no such word nor to '-h=', and 1 exactly if a fault was reported, an exception ended the run, or argparse failed on '-h='. There is no exit code exactly if the run hangs. No accepted command line shows help, and help and exit code 2 leave all files alone. An exit code of 1 does not mean that nothing was written.", "quantifier": "all command lines of any length with any words except '--option=--', all folders and files", "why_tests_cant": "tests try a few command lines; which of the unboundedly many combinations of words succeed without doing anything depends on the order of all of them", "anchors": ["asn1_parser/main.py:main", "asn1_parser/cli/cli_arg_parser.py:cli_args_parser", "asn1_parser/cli/cli_arg_parser.py:create_args_parser"]}
{"id": "C104", "title": "A run finishes exactly when its input suits the command and its output has room, and repeating it changes nothing", "statement": "For cfs, c and binary, with a current folder that exists: the exit code is 0 exactly if every input file can be read and spells a module, these modules suit the command (as in C58, C59 and C60: valid bundle, no cycles, every member has a C type and, for cfs and binary, encodable headers or clauses with an image), no file is in the way of a folder on the way to the output folder, and no folder has the name of a file to be written. For cosmos likewise, with the packets of C88 and the place of its one file. After a finished run of cfs, c or binary the folders are the former ones and those on the way to the output folder, exactly the files of the modules are written there, and every other file is as before. The same command given again finishes and changes no file, if no input file is one of those written; otherwise an input file can be overwritten so that the second run fails.", "quantifier": "all accepted command lines, all folders and files, all contents of input files, any number and size of modules", "why_tests_cant": "tests run a few commands in fresh folders; success and the final contents depend on the whole tree, all path spellings and all modules together", "anchors": ["asn1_parser/main.py:main", "asn1_parser/cli/cli_arg_parser.py:cli_args_parser", "asn1_parser/generators/binary/generator.py:BinaryGenerator.generate_binary"]}
{"id": "C105", "title": "Modules are processed in one determined order, and exactly the runs that come to a cycle hang", "statement": "For cfs, c and binary the modules are processed in the order got by walking over the list again and again, taking each module from which none of those left imports and passing the module behind a taken one unseen; there is exactly one such order, and none exactly if the imports are cyclic. A run of c or cfs on valid modules with acyclic imports goes in this order up to the first module with recursive types, where it hangs, or that does not fit the command, where it ends with an error; the files of the modules before are written and no others. So a run of c or cfs hangs exactly if the modules are valid and either imports are cyclic or the run comes to a module with recursive types, and a run that has not ended after one round more than there are modules and definitions never ends.", "quantifier": "all grammatical modules, any number of them, any contents of the output folder", "why_tests_cant": "that a run never ends cannot be observed by a test, and the order depends on the imports of all modules and on skipping while a list is changed", "anchors": ["asn1_parser/generators/cfs/module_sorter.py:ModuleSorter.create_ordered_import_list", "asn1_parser/asn1/asn1_bundle.py:ASN1Bundle.get_modules_ordered"]}
{"id": "C106", "title": "The files of c, cfs and binary are determined letter by letter", "statement": "After a finished run of c, cfs or binary a file of the output folder has a given content exactly if it is a file of one of the modules and the content meets its specification, or it is no file of a module and was there before with this content. The specification says which declarations, notes, comments, initialisers and defines the file has, in which order and how each is laid out, numbers included, and which bytes an image has; no other content meets it.", "quantifier": "all grammatical modules, any number and size of definitions, any depth of clauses, any contents of the output folder, both byte orders", "why_tests_cant": "a test compares the files of one input with a recorded text; that no other text would be right, and that every input leads to the right text, needs a specification with exactly one solution for each input", "anchors": ["asn1_parser/c_printer.py:CPrinter.print_to_file", "asn1_parser/generators/c/generator.py:CGenerator.generate_c", "asn1_parser/generators/cfs/generator.py:CFSGenerator.generate_cfs", "asn1_parser/generators/binary/generator.py:BinaryGenerator.generate_binary"]}
{"id": "C107", "title": "The text written by cosmos is determined letter by letter", "statement": "After a finished run of cosmos the file of the target holds what it held before followed by a text that meets its specification, and no other text meets it; the other files of the folder are as before. The specification says which packets, items, states, limits and units are listed, in which order, with which value and in which columns. One case is left out: a clause given to an item without components, for which the code prints the address of an object; it does not arise if the keys of clauses within clauses belong to members with components only.", "quantifier": "all grammatical modules, any messages, any depth of nesting and of clauses, any history of messages in the run, any contents of the output folder", "why_tests_cant": "a test compares the file of one input with a recorded text; that the text is right for every input, whatever messages and clauses come before, and that no other text would be, needs a specification with one solution for each input", "anchors": ["asn1_parser/generators/cosmos/generator.py:COSMOSGenerator.generate_cosmos", "asn1_parser/generators/cosmos/templates.py:cosmos_telemetry"]}
{"id": "C108", "title": "The files on disk after a finished process are determined letter by letter", "statement": "When the process finishes with cfs, c or binary, a file with a text is on disk exactly if it is a file of one of the modules that the input files spell, lies in the output folder and has the one text its specification gives, or if it lies elsewhere and was there with that text before. With cosmos the file of the target holds its former text followed by the one text specified, and all other files are as before. Two finished processes with the same modules and the same command write the same texts, whatever their working folders, their paths and the rest of the disk.", "quantifier": "all command lines, working folders and file trees, all spellings of paths and of the grammar, any number and size of modules; cosmos: where no item without components is given a clause", "why_tests_cant": "a test looks at the files of one run in one folder; that nothing else on disk changes and that the texts depend on nothing but modules and command is a statement about all trees, command lines and inputs", "anchors": ["asn1_parser/main.py:main", "asn1_parser/cli/cli_arg_parser.py:cli_args_parser", "asn1_parser/generators/binary/generator.py:BinaryGenerator.generate_binary"]}
{"id": "C109", "title": "What the loggers print", "statement": "After any history of loggers made, levels set and messages logged, a message of a logger adds its line as often as loggers of its name or of one above it were made, if its level reaches the threshold, and nothing otherwise. The threshold is the level of the class when the logger was made last; 0 stands for that of the name above, at the top 30. So nothing is printed as long as no level is set and only debug and info are used, as in this code; a level set after the loggers are made has no effect; and level, time, name and message can be read back from the line. That every message is printed once is refuted.", "quantifier": "all sequences, of any length, of loggers made, levels set and messages logged; all dotted names, messages and times", "why_tests_cant": "the loggers are shared by name, kept by the logging library and made when modules are imported, so what a message prints depends on the whole history of the process", "anchors": ["asn1_parser/log/logger.py:Logger.set_log_level", "asn1_parser/log/logger.py:Logger.__init__", "asn1_parser/log/colored_formatter.py:ColoredFormatter.format"]}
{"id": "C110", "title": "A run that fails leaves whole modules and no wrong text", "statement": "However a run of cfs, c or binary ends - with success, an error or hanging - it has processed the modules of an initial part of their order: exactly the files of these modules are written, each with the one text its specification gives, and all other files of the folder are as before. If the run succeeds these are all modules. The processed modules meet all demands of the command, and if neither the imports nor the types of a module form a circle, the run stops only at a module that does not. The same holds of the files on disk after a process whose modules are valid, if nothing is in the way of the output folder and its files; there the folders are the former ones and those on the way to the output folder. So no run leaves a wrong or incomplete text.", "quantifier": "all grammatical modules in any number, valid or not, any configuration, any bound on the steps, any contents of the output folder, every way a run can end", "why_tests_cant": "the tests of failures look at the exception only; which files are left behind and that each is complete and right depends on where among the modules, in an order the code chooses, the failure occurs", "anchors": ["asn1_parser/generators/c/generator.py:CGenerator.generate_c", "asn1_parser/generators/cfs/generator.py:CFSGenerator.generate_cfs", "asn1_parser/generators/binary/generator.py:BinaryGenerator.generate_binary"]}
{"id": "C111", "title": "Earlier runs leave no trace in the files of a later one", "statement": "After any runs of cfs, c and binary into one folder, on any modules and each ending with success, an error or hanging, every file has its text from before or the one text the specification gives it for one of the runs; no file disappears, and files that no module of these runs names are unchanged. A run that succeeds afterwards would have succeeded without them, and the folder is then as if the earlier runs had never been made. Likewise, after any processes whose input files spell valid modules and whose output has room on the disk, every file on disk has its former text or the one text of a file of one of the processes, no file or folder disappears, and files at places to which none of the processes writes are unchanged.", "quantifier": "all series of runs of any length, all commands with a configuration, all grammatical modules, any bound on the steps, every way a run can end, any contents of the folder", "why_tests_cant": "each test generates once into a fresh folder; what becomes of files from earlier, in particular failed, runs depends on the whole history of the folder", "anchors": ["asn1_parser/generators/c/generator.py:CGenerator.generate_c", "asn1_parser/generators/cfs/generator.py:CFSGenerator.generate_cfs", "asn1_parser/generators/binary/generator.py:BinaryGenerator.generate_binary"]}
