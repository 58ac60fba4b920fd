{"claims": [
 {"property": "C01", "status": "proved", "theorems": ["C01_enumerations_numbered", "C01_items_kept", "C01_other_numbers_rejected", "C01_index_error_iff"], "note": ""},
 {"property": "C02", "status": "partial", "theorems": ["C02_explicit_numbers_survive_refuted", "C02_explicit_numbers_survive_partial"], "note": "False of the code: explicit numbers with sum 0 are silently replaced."},
 {"property": "C03", "status": "proved", "theorems": ["C03_enumerations_agree"], "note": ""},
 {"property": "C04", "status": "proved", "theorems": ["C04_unsigned_size"], "note": ""},
 {"property": "C05", "status": "proved", "theorems": ["C05_signed_size"], "note": ""},
 {"property": "C06", "status": "partial", "theorems": ["C06_bytes_exact_refuted", "C06_bytes_exact_partial", "C06_rejected_iff"], "note": "False: the division goes through a double, inexact above 2^56 bits; proved up to 2^56."},
 {"property": "C07", "status": "proved", "theorems": ["C07_size", "C07_recursive"], "note": ""},
 {"property": "C08", "status": "proved", "theorems": ["C08_unsigned_field", "C08_zero_range_fails"], "note": ""},
 {"property": "C09", "status": "partial", "theorems": ["C09_signed_field_refuted", "C09_signed_field_partial"], "note": "False: signed members without a POSIX type name become plain int; proved for POSIX names."},
 {"property": "C10", "status": "partial", "theorems": ["C10_same_bits_partial", "C10_gap_refuted", "C10_signed_refuted", "C10_boolean_refuted", "C10_posix_real_refuted", "C10_sequences_refuted"], "note": "Struct and packet describe the same bits iff bytes and sequences start at byte boundaries, for messages of items with the same width on both sides (C10_same_bits_partial); false in general: gaps after bit-fields, signed ranges, named BOOLEAN, POSIX-named REAL, arrays of sequences."},
 {"property": "C11", "status": "proved", "theorems": ["C11_modules_ordered", "C11_order_sound"], "note": ""},
 {"property": "C12", "status": "partial", "theorems": ["C12_cyclic_imports_hang", "C12_cyclic_imports_rejected_refuted"], "note": "False: refuted for every accepted bundle with circular imports, the ordering loop never ends."},
 {"property": "C13", "status": "proved", "theorems": ["C13_definitions_ordered"], "note": ""},
 {"property": "C14", "status": "partial", "theorems": ["C14_recursive_types_hang", "C14_recursive_types_no_success", "C14_recursive_types_rejected_refuted"], "note": "False: refuted, the sorting loop never ends; proved that no command succeeds."},
 {"property": "C15", "status": "proved", "theorems": ["C15_used_types_defined", "C15_undefined_type_rejected"], "note": ""},
 {"property": "C16", "status": "partial", "theorems": ["C16_imports_resolve", "C16_imports_resolve_partial", "C16_imports_resolve_refuted"], "note": "False of the cosmos command, which does not check imports; proved for cfs, c and binary."},
 {"property": "C17", "status": "proved", "theorems": ["C17_type_names_unique"], "note": ""},
 {"property": "C18", "status": "partial", "theorems": ["C18_module_names_unique_refuted", "C18_module_names_unique_partial"], "note": "False of the cosmos command; proved for cfs, c and binary."},
 {"property": "C19", "status": "proved", "theorems": ["C19_listed_modules", "C19_subset_rejected"], "note": ""},
 {"property": "C20", "status": "partial", "theorems": ["C20_clause_keys_exist_refuted", "C20_clause_keys_exist_partial", "C20_foreign_key_rejected"], "note": "False: clauses on members of a built-in type are accepted unseen; proved for members of SEQUENCE type, at every depth."},
 {"property": "C21", "status": "partial", "theorems": ["C21_values_in_range_refuted"], "note": "False: values of WITH COMPONENTS are never compared with the component's range."},
 {"property": "C22", "status": "proved", "theorems": ["C22_ranges_ordered", "C22_reversed_range_rejected"], "note": ""},
 {"property": "C23", "status": "proved", "theorems": ["C23_null_rejected"], "note": ""},
 {"property": "C24", "status": "partial", "theorems": ["C24_posix_names_refuted", "C24_posix_names_partial"], "note": "False: only the numeric range is compared, not the kind of type."},
 {"property": "C25", "status": "proved", "theorems": ["C25_real_range_type"], "note": ""},
 {"property": "C26", "status": "proved", "theorems": ["C26_comments_clean", "C26_unit_readable"], "note": ""},
 {"property": "C27", "status": "proved", "theorems": ["C27_message_id", "C27_fields_recovered", "C27_accepted_iff"], "note": ""},
 {"property": "C28", "status": "partial", "theorems": ["C28_any_apid_accepted", "C28_out_of_range_refuted", "C28_non_numeric_rejected_partial"], "note": "False: fields are never compared with their widths and spill over; only non-numeric components are rejected."},
 {"property": "C29", "status": "partial", "theorems": ["C29_distinct_ids_partial", "C29_ids_unique_refuted"], "note": "False: duplicate identifications are not detected; proved that different in-range identifications get different IDs."},
 {"property": "C30", "status": "partial", "theorems": ["C30_defines_partial", "C30_names_distinct_iff", "C30_names_distinct_refuted"], "note": "One define per component proved down to the written file; distinctness is false, with an exact characterisation of the collisions."},
 {"property": "C31", "status": "proved", "theorems": ["C31_files_distinct", "C31_files_in_folder", "C31_guards_distinct"], "note": ""},
 {"property": "C32", "status": "partial", "theorems": ["C32_includes_exist_partial", "C32_c_includes_dangling", "C32_includes_exist_refuted"], "note": "False for c and binary, whose includes lack .h; proved for cfs"},
 {"property": "C33", "status": "partial", "theorems": ["C33_declared_before_use_partial", "C33_declared_before_use_refuted", "C33_union_members_refuted", "C33_header_types_partial"], "note": "False for members of a CHOICE type (union without typedef), of a simple BOOLEAN or string (bool, string are no C types), and for most union members; C33_header_types_partial states exactly which modules have only declared types, in the text of their headers."},
 {"property": "C34", "status": "proved", "theorems": ["C34_identifiers", "C34_names_distinct", "C34_instances_distinct", "C34_instance_not_type", "C34_prefixes_distinct"], "note": ""},
 {"property": "C35", "status": "proved", "theorems": ["C35_initialisers", "C35_reconstructed"], "note": ""},
 {"property": "C36", "status": "partial", "theorems": ["C36_header_included_refuted", "C36_header_included_partial"], "note": "False: the include is lost if a definition without clause comes last. C35_initialisers states exactly when it is there; proved to be there if all definitions other than simple types have a clause."},
 {"property": "C37", "status": "proved", "theorems": ["C37_integers_packed", "C37_byte_orders"], "note": ""},
 {"property": "C38", "status": "proved", "theorems": ["C38_singles_packed", "C38_doubles_packed"], "note": ""},
 {"property": "C39", "status": "partial", "theorems": ["C39_clause_image_partial", "C39_struct_image_partial", "C39_struct_image_refuted", "C39_partial_clause_refuted"], "note": "False: the image is that of the last clause only, in the order of the clause; proved to be the struct image for clauses that name all members in order."},
 {"property": "C40", "status": "partial", "theorems": ["C40_clauses_written_refuted", "C40_choice_refuted", "C40_only_clause_partial"], "note": "False: only the last clause of a sequence and none of a CHOICE; proved for the only clause of a sequence."},
 {"property": "C41", "status": "proved", "theorems": ["C41_text", "C41_complete"], "note": ""},
 {"property": "C42", "status": "partial", "theorems": ["C42_values_partial", "C42_independent_refuted", "C42_twice_refuted"], "note": "C42_values_partial: shown for messages in which at most one clause speaks about each member of a path; false in general (C42_independent_refuted: a value leaks into the next message; C42_twice_refuted: a component fixed twice has no value). C88 gives the values for all clauses."},
 {"property": "C43", "status": "partial", "theorems": ["C43_regenerate_partial", "C43_cosmos_appends", "C43_regenerate_refuted"], "note": "False for cosmos, which appends; proved for cfs, c and binary"},
 {"property": "C44", "status": "proved", "theorems": ["C44_resolved", "C44_ends", "C44_cyclic"], "note": ""},
 {"property": "C45", "status": "partial", "theorems": ["C45_only_fixed_partial", "C45_unmentioned_partial", "C45_refuted"], "note": "False for BOOLEAN items (C45_refuted: ID item with value 0). Shown for the other items under C42's hypothesis and for items no clause mentions. C88 gives the values for all clauses."},
 {"property": "C46", "status": "proved", "theorems": ["C46_invalid_untouched", "C46_output_independent"], "note": ""},
 {"property": "C47", "status": "proved", "theorems": ["C47_recorded_users", "C47_note"], "note": ""},
 {"property": "C48", "status": "partial", "theorems": ["C48_read_back_partial", "C48_quoted_refuted"], "note": "Unique reading of every line whose value is not the printed form of a clause, with the comment ending at the last quote; false if the comment has to end at the next quote (C48_quoted_refuted). That each line written has the form is part of C41_text."},
 {"property": "C49", "status": "proved", "theorems": ["C49_module_accepted_iff"], "note": ""},
 {"property": "C50", "status": "proved", "theorems": ["C50_bundle_accepted_iff", "C50_cosmos_accepted_iff", "C50_cosmos_any_names"], "note": "C50_cosmos_any_names also covers repeated module names."},
 {"property": "C51", "status": "proved", "theorems": ["C51_read_grammatical"], "note": ""},
 {"property": "C52", "status": "proved", "theorems": ["C52_read_exactly", "C52_unambiguous"], "note": ""},
 {"property": "C53", "status": "proved", "theorems": ["C53_readable_modules"], "note": ""},
 {"property": "C54", "status": "partial", "theorems": ["C54_comments_ignored_refuted", "C54_comment_takes_line_partial"], "note": "False: on a comment line with a character outside the comment class, such as a brace, the text after -- is read as part of the module. Proved: a comment of comment characters takes the rest of the line."},
 {"property": "C55", "status": "proved", "theorems": ["C55_files_read", "C55_unreadable_untouched", "C55_missing_file", "C55_undecodable_file", "C55_line_ends"], "note": ""},
 {"property": "C56", "status": "proved", "theorems": ["C56_names_split", "C56_names_used"], "note": ""},
 {"property": "C57", "status": "partial", "theorems": ["C57_header_declares_partial", "C57_said_once", "C57_header_declares_refuted"], "note": "Proved for modules whose comments contain no end of a block comment, whose line comments do not end in a backslash and whose CHOICE members have no comment. Without these hypotheses it is false: C57_header_declares_refuted (a comment adds a declaration, hides a field, or makes the union unreadable)."},
 {"property": "C58", "status": "proved", "theorems": ["C58_c_succeeds"], "note": ""},
 {"property": "C59", "status": "proved", "theorems": ["C59_cfs_succeeds"], "note": ""},
 {"property": "C60", "status": "proved", "theorems": ["C60_binary_succeeds"], "note": ""},
 {"property": "C61", "status": "partial", "theorems": ["C61_cosmos_succeeds_partial", "C61_leak_refuted"], "note": "Proved if no leaf is given values by two clauses or none is an APID; false otherwise (C61_leak_refuted), since clauses leak from one message into the next (see C42). C88_succeeds is the exact condition without this restriction and for repeated module names."},
 {"property": "C62", "status": "proved", "theorems": ["C62_command_lines"], "note": ""},
 {"property": "C63", "status": "proved", "theorems": ["C63_stops", "C63_unreadable", "C63_places", "C63_appends"], "note": ""},
 {"property": "C64", "status": "partial", "theorems": ["C64_in_folder_partial", "C64_in_folder_refuted"], "note": "Proved for cfs, c and binary, and for cosmos if --output-file-name has no slash; false otherwise (C64_in_folder_refuted): the name is joined to the folder as it is."},
 {"property": "C65", "status": "proved", "theorems": ["C65_c_succeeds", "C65_cfs_succeeds", "C65_binary_succeeds", "C65_cosmos_succeeds"], "note": "For cosmos the condition is that of C88_succeeds, without restriction on clauses or module names."},
 {"property": "C66", "status": "partial", "theorems": ["C66_declared_once_partial", "C66_fields_once_partial", "C66_declared_once_refuted"], "note": "Proved to hold exactly under a condition on the keys of the module (distinct_names), which the tool does not check; C66_declared_once_refuted shows accepted modules for which it fails."},
 {"property": "C67", "status": "partial", "theorems": ["C67_no_keyword_partial", "C67_no_keyword_refuted"], "note": "Proved to hold exactly if no key is a keyword, which the tool does not check; C67_no_keyword_refuted shows an accepted module for which it fails."},
 {"property": "C68", "status": "partial", "theorems": ["C68_valid_fields_partial", "C68_valid_fields_refuted"], "note": "Proved to hold exactly of members with fitting types, provided only simple types have POSIX names; C68_valid_fields_refuted shows accepted modules for which it fails (array of BOOLEAN, array of a three-bit type, one-item ENUMERATED, empty string, INTEGER above 64 bits)."},
 {"property": "C69", "status": "partial", "theorems": ["C69_file_read_partial", "C69_file_read_refuted"], "note": "Proved if no comment of a message contains a quote or a backslash and at most one clause speaks about each member of a path (see C42); C69_file_read_refuted: a comment with a quote makes the file unreadable. C89 is the statement without restriction on clauses."},
 {"property": "C70", "status": "partial", "theorems": ["C70_distinct_items_partial", "C70_distinct_items_refuted"], "note": "Proved to hold exactly if the leaves of the message have different keys, which the tool does not check; C70_distinct_items_refuted: two members of one SEQUENCE type."},
 {"property": "C71", "status": "partial", "theorems": ["C71_valid_items_partial", "C71_valid_items_refuted"], "note": "Proved to hold exactly under a condition on the leaves (valid_leaf), which the tool does not check; C71_valid_items_refuted: array of BOOLEAN, one-item ENUMERATED, INTEGER(0..0), empty string, INTEGER above 64 bits, value out of range."},
 {"property": "C72", "status": "partial", "theorems": ["C72_cosmos_untouched_partial", "C72_files_left_partial", "C72_untouched_refuted"], "note": "Holds of cosmos. Of cfs, c and binary: for valid input without cycles the run ends, stops at the first module that does not fit the command, has written exactly the files of the modules before it (all their importers included), and changes no other file. C72_untouched_refuted: each of the three commands changes the folder in a failing run."},
 {"property": "C73", "status": "partial", "theorems": ["C73_more_fuel", "C73_ends_partial", "C73_ends_refuted"], "note": "For all commands and inputs, valid or not, with acyclic imports and acyclic types: the run ends with fuel 1 + modules + definitions, and more fuel changes nothing (C73_more_fuel, for every input). C73_ends_refuted: types that contain each other make cosmos run for ever; C12 and C14 say so of cfs, c and binary."},
 {"property": "C74", "status": "partial", "theorems": ["C74_read_nearest", "C74_text_read", "C74_printed_reads_refuted", "C74_printed_reads_partial", "C74_printed_nearest_partial", "C74_unique", "C74_shortest"], "note": "Reading is proved for every float text, printing (reads back, shortest, nearest among the shortest) for every finite double. C74_printed_reads_refuted: a number too large for a double is printed as inf, which the grammar does not read."},
 {"property": "C75", "status": "partial", "theorems": ["C75_initialisers_fit_partial", "C75_initialisers_fit_refuted"], "note": "Proved as an equivalence: an initialiser fits exactly if the clause constrains SEQUENCEs that are no arrays, gives values to numbers only, and only values C has constants for. C75_initialisers_fit_refuted: the command accepts clauses on arrays and built-in types, values for SEQUENCEs, strings and simple BOOLEANs, and numbers too large for C. Comments must do no harm (C57)."},
 {"property": "C76", "status": "partial", "theorems": ["C76_no_variables_partial", "C76_no_variables_refuted"], "note": "Proved as an equivalence: a header defines a variable exactly if the module has a CHOICE or, for command c, a SEQUENCE with a clause. C76_no_variables_refuted shows both. Comments must do no harm (C57)."},
 {"property": "C77", "status": "partial", "theorems": ["C77_same_image_partial", "C77_same_image_refuted"], "note": "Proved for a SEQUENCE whose only member has a clause naming all members in order, with numbers as wide in C as in the image and values that C rounds the same way. C77_same_image_refuted: signed INTEGERs that do not need 32 bits, components in another order or left out, further members, and large integers for a single-precision REAL give other bytes. Comments must do no harm (C57)."},
 {"property": "C78", "status": "partial", "theorems": ["C78_recognised_partial", "C78_recognised_refuted"], "note": "Proved for messages whose first four items are the packet identification, with BOOLEAN fields given as BOOLEAN, integer fields as integers within their range, at most one clause per member of a path (C42) and comments that can be read back (C69). C78_recognised_refuted: a BOOLEAN field given as 1 and an APID out of range are not recognised."},
 {"property": "C79", "status": "proved", "theorems": ["C79_stops", "C79_unreadable", "C79_rejected", "C79_places", "C79_finishes"], "note": ""},
 {"property": "C80", "status": "proved", "theorems": ["C80_appends", "C80_nothing_deleted"], "note": ""},
 {"property": "C81", "status": "proved", "theorems": ["C81_bundle", "C81_module", "C81_undecodable", "C81_only"], "note": ""},
 {"property": "C82", "status": "partial", "theorems": ["C82_names", "C82_numbers", "C82_comments", "C82_ascii_names_refuted", "C82_ascii_names_partial"], "note": "Agreement with the regular expressions is proved for all ASCII texts. C82_ascii_names_refuted: \\d matches every decimal digit of Unicode, so that names (and C identifiers made of them) can contain other digits; C82_ascii_names_partial holds for texts without such digits."},
 {"property": "C83", "status": "partial", "theorems": ["C83_grammar", "C83_unique", "C83_ascii_refuted", "C83_ascii_partial", "C83_texts"], "note": "Agreement of the model's parser with the rules of the grammar is proved for all ASCII texts, and for the UTF-8 encoding of all texts without decimal digits of other scripts. C83_ascii_refuted: a text with such a digit in a name is accepted; C83_ascii_partial: every other character of an accepted text is ASCII."},
 {"property": "C84", "status": "partial", "theorems": ["C84_order", "C84_cosmos_order_partial", "C84_cosmos_order_refuted"], "note": "Proved for cfs, c and binary. For cosmos it holds if no two modules have the same name; C84_cosmos_order_refuted: of two modules with the same name the first is taken."},
 {"property": "C85", "status": "partial", "theorems": ["C85_files_kept", "C85_cfs_files_kept_partial", "C85_cfs_files_kept_refuted", "C85_part_succeeds", "C85_cosmos_same_partial", "C85_cosmos_same_refuted"], "note": "Proved for c and binary. For cfs it holds of modules whose simple types are not used in the further modules; C85_cfs_files_kept_refuted: the comment of a simple type names the modules using it. For cosmos no two modules may have the same name (C85_cosmos_same_refuted)."},
 {"property": "C86", "status": "proved", "theorems": ["C86_same_text", "C86_same_types"], "note": "C86_same_text is the full statement; C86_same_types is what it means when the headers are read as C, which needs comments that do no harm (C57)."},
 {"property": "C87", "status": "partial", "theorems": ["C87_headers_partial", "C87_header_text", "C87_images_partial", "C87_message_ids", "C87_telemetry_partial", "C87_telemetry_given_partial"], "note": "C87_message_ids and C87_header_text are complete. Headers read as C: modules whose comments do no harm (see C57). Images: the last clause of a sequence, and the whole struct if the clause names every member in order (see C39). Telemetry: comments without quotes and backslashes, and one clause on each member, or, with the values of C88, no clause given to a leaf (see C69 and C89)."},
 {"property": "C88", "status": "proved", "theorems": ["C88_values", "C88_earlier", "C88_succeeds"], "note": "For all clauses and module names; a clause given to a leaf is shown as an object address, about which nothing is said."},
 {"property": "C89", "status": "partial", "theorems": ["C89_file_read_partial", "C89_valid_items"], "note": "Proved for all clauses and module names if no comment contains a quote or a backslash (false otherwise, C69_file_read_refuted) and no clause is given to a leaf, whose item then shows an object address. C89_valid_items is the exact condition for valid items."},
 {"property": "C90", "status": "proved", "theorems": ["C90_printed", "C90_true", "C90_misleading"], "note": "C90_printed and C90_true are proved for all runs. A type that is said not to be defined by the check of clauses may be defined, but not as one sequence (C90_misleading); the statement says so."},
 {"property": "C91", "status": "proved", "theorems": ["C91_one_result", "C91_written", "C91_module"], "note": ""},
 {"property": "C92", "status": "partial", "theorems": ["C92_cosmos", "C92_files_partial", "C92_files_refuted"], "note": "Proved for cosmos (same folder), for the images (same bytes) and for all .h files. The .c files differ in order and, in the code, in whether they include their header (C92_files_refuted, the defect of C36)."},
 {"property": "C93", "status": "proved", "theorems": ["C93_comments", "C93_success", "C93_two", "C93_condition_needed"], "note": ""},
 {"property": "C94", "status": "proved", "theorems": ["C94_cosmos", "C94_files", "C94_notes_refuted"], "note": "C94_notes_refuted shows that the exception for the notes of cfs is needed"},
 {"property": "C95", "status": "proved", "theorems": ["C95_header_text", "C95_declares", "C95_member_comments"], "note": ""},
 {"property": "C96", "status": "proved", "theorems": ["C96_cosmos", "C96_cosmos_fails", "C96_success", "C96_images", "C96_message_ids", "C96_posix_refuted"], "note": ""},
 {"property": "C97", "status": "partial", "theorems": ["C97_packet_partial", "C97_packet_refuted", "C97_boolean_refuted"], "note": "proved for messages whose first member alone has a clause that names all members in order, with numbers for values, no arrays, and comments with the byte order of the image; C97_packet_refuted (clauses in another order) and C97_boolean_refuted (a truth value for an integer) show that the full statement is false of the code"},
 {"property": "C98", "status": "proved", "theorems": ["C98_headers", "C98_sources", "C98_one_order", "C98_needed_first", "C98_kept", "C98_renamed"], "note": ""},
 {"property": "C99", "status": "partial", "theorems": ["C99_unit_partial", "C99_valid_partial", "C99_no_imports", "C99_unit_refuted"], "note": "proved for generate-cfs; false for generate-c and generate-binary, whose includes lack the extension .h: C99_no_imports says exactly when their headers can be included (no imports), C99_unit_refuted shows a case"},
 {"property": "C100", "status": "proved", "theorems": ["C100_outline", "C100_hides"], "note": ""},
 {"property": "C101", "status": "proved", "theorems": ["C101_compiles"], "note": ""},
 {"property": "C102", "status": "proved", "theorems": ["C102_ends", "C102_true", "C102_cosmos", "C102_told", "C102_misleading"], "note": "The text is the message the exception is created with. C102_misleading: a negative number said to be defined multiple times may be defined once; it takes the place of another number, which is what the statement says."},
 {"property": "C103", "status": "proved", "theorems": ["C103_zero", "C103_two", "C103_one", "C103_none", "C103_accepted", "C103_unchanged", "C103_failed_untouched_refuted"], "note": ""},
 {"property": "C104", "status": "proved", "theorems": ["C104_success", "C104_cosmos", "C104_tree", "C104_again", "C104_again_refuted"], "note": ""},
 {"property": "C105", "status": "proved", "theorems": ["C105_order", "C105_order_exists", "C105_course", "C105_hangs", "C105_soon"], "note": ""},
 {"property": "C106", "status": "proved", "theorems": ["C106_folder", "C106_headers", "C106_images", "C106_decimal", "C106_hexadecimal", "C106_image"], "note": ""},
 {"property": "C107", "status": "proved", "theorems": ["C107_folder", "C107_no_addresses"], "note": ""},
 {"property": "C108", "status": "proved", "theorems": ["C108_tree", "C108_cosmos", "C108_same"], "note": ""},
 {"property": "C109", "status": "proved", "theorems": ["C109_lines", "C109_threshold", "C109_silent", "C109_late", "C109_read", "C109_once_refuted"], "note": ""},
 {"property": "C110", "status": "proved", "theorems": ["C110_left", "C110_never_torn", "C110_disk"], "note": ""},
 {"property": "C111", "status": "partial", "theorems": ["C111_texts", "C111_kept", "C111_untouched", "C111_recovered", "C111_no_trace_partial", "C111_no_trace_refuted", "C111_disk_texts", "C111_disk_untouched", "C111_disk_kept"], "note": "All holds in general but that the folder is as if the earlier runs had never been made. That holds of every file that the later run names or no earlier run names (C111_recovered), so of the whole folder if the later run names all files of the earlier ones (C111_no_trace_partial). C111_no_trace_refuted: files of a module that is gone stay in the folder."}
]}
