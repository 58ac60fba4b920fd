-Q theories Verif
theories/Base.v
theories/PyNum.v
theories/PyStr.v
theories/PyFloat.v
theories/Ast.v
theories/Grammar.v
theories/Regex.v
theories/Spec_Regex.v
theories/Regex_proofs.v
theories/Peg.v
theories/GrammarText.v
theories/Spec_Peg.v
theories/Peg_proofs.v
theories/GrammarText_proofs.v
theories/PegTotal_proofs.v
theories/Props_Peg.v
theories/Props_GrammarText.v
theories/Props_Regex.v
theories/Size.v
theories/Processor.v
theories/Bundle.v
theories/Sorter.v
theories/CCommon.v
theories/GenCfs.v
theories/GenC.v
theories/GenBinary.v
theories/GenCosmos.v
theories/Main.v
theories/Source.v
theories/Cli.v
theories/Tree.v
theories/Messages.v
theories/Status.v
theories/Pprint.v
theories/Spec_Cli.v
theories/Spec_Tree.v
theories/Tree_proofs.v
theories/Tree2_proofs.v
theories/Tree3_proofs.v
theories/Spec_Utf8.v
theories/Spec_Source.v
theories/Utf8_proofs.v
theories/Source_proofs.v
theories/Spec_Header.v
theories/Header_proofs.v
theories/Header2_proofs.v
theories/Header3_proofs.v
theories/Spec_Runs.v
theories/Runs_proofs.v
theories/Runs2_proofs.v
theories/Write_proofs.v
theories/Props_Syntax.v
theories/Props_Header.v
theories/Props_Runs.v
theories/Conformance.v
theories/Lib_proofs.v
theories/Spec_Enum.v
theories/Enum_proofs.v
theories/Props_Enum.v
theories/Spec_Grammar.v
theories/Spec_Syntax.v
theories/Spec_Num.v
theories/Num_proofs.v
theories/Spec_Check.v
theories/Check_proofs.v
theories/Spec_Bundle.v
theories/Bundle_proofs.v
theories/Str_proofs.v
theories/Lex_proofs.v
theories/Token_proofs.v
theories/Syntax_proofs.v
theories/Syntax2_proofs.v
theories/Syntax3_proofs.v
theories/Float_proofs.v
theories/Nearest_proofs.v
theories/Repr_proofs.v
theories/Fraction_proofs.v
theories/Spec_Floats.v
theories/Spec_Init.v
theories/Spec_Object.v
theories/Floats_proofs.v
theories/Init_proofs.v
theories/Object_proofs.v
theories/Shortest_proofs.v
theories/Props_Floats.v
theories/Props_Init.v
theories/Props_Object.v
theories/Grammatical_proofs.v
theories/Reject_proofs.v
theories/Samples.v
theories/Note_proofs.v
theories/Props_Check.v
theories/Props_Bundle.v
theories/Name_proofs.v
theories/Spec_Size.v
theories/Accept_proofs.v
theories/Spec_Gen.v
theories/Gen_proofs.v
theories/Size_proofs.v
theories/Field_proofs.v
theories/Props_Size.v
theories/Spec_Order.v
theories/Order_proofs.v
theories/Cdata_proofs.v
theories/Run_proofs.v
theories/Ends_proofs.v
theories/Spec_Files.v
theories/Files_proofs.v
theories/Props_Files.v
theories/Spec_Text.v
theories/Text_proofs.v
theories/Spec_Cfs.v
theories/Disk_proofs.v
theories/Cfs_proofs.v
theories/Props_Cfs.v
theories/Spec_C.v
theories/C_proofs.v
theories/Decl_proofs.v
theories/Props_C.v
theories/Spec_Layout.v
theories/Layout_proofs.v
theories/Spec_Ieee.v
theories/Ieee_proofs.v
theories/Spec_Binary.v
theories/Binary_proofs.v
theories/Props_Binary.v
theories/Props_Layout.v
theories/Spec_Cosmos.v
theories/Spec_Packed.v
theories/Cosmos_proofs.v
theories/Cosmos_text_proofs.v
theories/Packed_proofs.v
theories/Props_Packed.v
theories/Props_Cosmos.v
theories/Spec_Cosmos_runs.v
theories/Cosmos_runs_proofs.v
theories/Props_Cosmos_runs.v
theories/Props_Order.v
theories/Cli_proofs.v
theories/Start_proofs.v
theories/Props_Cli.v
theories/Spec_Report.v
theories/Report_proofs.v
theories/Props_Tree.v
theories/Props_Report.v
theories/Spec_Message.v
theories/Message_proofs.v
theories/Props_Message.v
theories/Spec_Valid.v
theories/Valid_proofs.v
theories/Props_Valid.v
theories/Spec_Telemetry.v
theories/Telemetry_proofs.v
theories/Props_Telemetry.v
theories/Spec_Failures.v
theories/Failures_proofs.v
theories/Props_Failures.v
theories/Termination_proofs.v
theories/Fuel_proofs.v
theories/Props_Termination.v
theories/Spec_Ident.v
theories/Ident_proofs.v
theories/Props_Ident.v
theories/Spec_Inputs.v
theories/Inputs_proofs.v
theories/Inputs2_proofs.v
theories/Props_Inputs.v
theories/Spec_Agree.v
theories/Agree_proofs.v
theories/Props_Agree.v
theories/Whole_proofs.v
theories/Whole2_proofs.v
theories/Props_Whole.v
theories/Spec_History.v
theories/Last_proofs.v
theories/History_proofs.v
theories/History_runs_proofs.v
theories/Props_History.v
theories/Spec_Reread.v
theories/Reread_proofs.v
theories/Props_Reread.v
theories/Spec_Reorder.v
theories/Spec_Plain.v
theories/Plain_proofs.v
theories/Plain_files_proofs.v
theories/Plain_runs_proofs.v
theories/Plain_cosmos_proofs.v
theories/Reorder_proofs.v
theories/Reorder_files_proofs.v
theories/Reorder_cosmos_proofs.v
theories/Props_Reorder.v
theories/Props_Plain.v
theories/Spec_Grown.v
theories/Grown_proofs.v
theories/Grown_files_proofs.v
theories/Grown_cosmos_proofs.v
theories/Props_Grown.v
theories/Spec_Printed.v
theories/Printed_proofs.v
theories/Props_Printed.v
theories/Spec_Rename.v
theories/Rename_proofs.v
theories/Rename_cosmos_proofs.v
theories/Rename_files_proofs.v
theories/Props_Rename.v
theories/Spec_Sent.v
theories/Sent_proofs.v
theories/Props_Sent.v
theories/Spec_Place.v
theories/Place_proofs.v
theories/Order_files_proofs.v
theories/Props_Place.v
theories/Spec_Unit.v
theories/Unit_proofs.v
theories/Unit2_proofs.v
theories/Props_Unit.v
theories/Spec_Outline.v
theories/Pprint_proofs.v
theories/Props_Outline.v
theories/Spec_Compile.v
theories/Compile_proofs.v
theories/Props_Compile.v
theories/Spec_Raise.v
theories/Raise_proofs.v
theories/Props_Raise.v
theories/Spec_Status.v
theories/Status_proofs.v
theories/Props_Status.v
theories/Spec_Done.v
theories/Done_proofs.v
theories/Props_Done.v
theories/Spec_Hang.v
theories/Hang_proofs.v
theories/Props_Hang.v
theories/Spec_Letters.v
theories/Spec_Target.v
theories/Letters_proofs.v
theories/Exact_proofs.v
theories/Target_proofs.v
theories/Props_Letters.v
theories/Props_Target.v
theories/Ondisk_proofs.v
theories/Props_Ondisk.v
theories/Log.v
theories/Spec_Log.v
theories/Log_proofs.v
theories/Props_Log.v
theories/Half_source_proofs.v
theories/Half_image_proofs.v
theories/Half_header_proofs.v
theories/Half_ids_proofs.v
theories/Half_proofs.v
theories/Half_disk_proofs.v
theories/Props_Half.v
theories/Spec_Series.v
theories/Series_proofs.v
theories/Spec_Processes.v
theories/Processes_proofs.v
theories/Props_Series.v
