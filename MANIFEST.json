{
 "claims": [
  {
   "property": "C01",
   "status": "proved",
   "theorems": [
    "C01_sound",
    "C01_sound_slice",
    "C01_unambiguous"
   ],
   "note": ""
  },
  {
   "property": "C02",
   "status": "proved",
   "theorems": [
    "C02_complete",
    "C02_complete_slice"
   ],
   "note": ""
  },
  {
   "property": "C03",
   "status": "proved",
   "theorems": [
    "C03_u32_exact",
    "C03_u32_outcomes"
   ],
   "note": ""
  },
  {
   "property": "C04",
   "status": "proved",
   "theorems": [
    "C04_u64_exact",
    "C04_u64_outcomes"
   ],
   "note": ""
  },
  {
   "property": "C05",
   "status": "proved",
   "theorems": [
    "C05_i32_exact",
    "C05_i32_outcomes"
   ],
   "note": ""
  },
  {
   "property": "C06",
   "status": "proved",
   "theorems": [
    "C06_i64_exact",
    "C06_i64_outcomes",
    "C06_tenth_byte"
   ],
   "note": ""
  },
  {
   "property": "C07",
   "status": "proved",
   "theorems": [
    "C07_s33_exact",
    "C07_s33_outcomes",
    "C07_range"
   ],
   "note": ""
  },
  {
   "property": "C08",
   "status": "proved",
   "theorems": [
    "C08_vector",
    "C08_byte_vector"
   ],
   "note": ""
  },
  {
   "property": "C09",
   "status": "proved",
   "theorems": [
    "C09_element_st",
    "C09_element",
    "C09_length"
   ],
   "note": ""
  },
  {
   "property": "C10",
   "status": "proved",
   "theorems": [
    "C10_name",
    "C10_not_utf8"
   ],
   "note": ""
  },
  {
   "property": "C11",
   "status": "proved",
   "theorems": [
    "C11_f32_exact",
    "C11_f64_exact",
    "C11_f32_total",
    "C11_f64_total",
    "C11_bits_preserved",
    "C11_f32_const",
    "C11_f64_const",
    "C11_v128_const",
    "C11_shuffle"
   ],
   "note": ""
  },
  {
   "property": "C12",
   "status": "proved",
   "theorems": [
    "C12_absheaptype",
    "C12_heaptype",
    "C12_reftype",
    "C12_valtype"
   ],
   "note": ""
  },
  {
   "property": "C13",
   "status": "proved",
   "theorems": [
    "C13_resulttype",
    "C13_storagetype",
    "C13_fieldtype",
    "C13_comptype",
    "C13_subtype",
    "C13_rectype",
    "C13_type_section",
    "C13_shorthand"
   ],
   "note": ""
  },
  {
   "property": "C14",
   "status": "proved",
   "theorems": [
    "C14_limits",
    "C14_memtype",
    "C14_tabletype",
    "C14_globaltype",
    "C14_tagtype",
    "C14_externtype",
    "C14_memory_section",
    "C14_tag_section",
    "C14_global_section",
    "C14_bad_flag",
    "C14_bad_mutability",
    "C14_bad_tag",
    "C14_bad_extern"
   ],
   "note": ""
  },
  {
   "property": "C15",
   "status": "proved",
   "theorems": [
    "C15_blocktype",
    "C15_unambiguous",
    "C15_disjoint"
   ],
   "note": ""
  },
  {
   "property": "C16",
   "status": "proved",
   "theorems": [
    "C16_memarg",
    "C16_bad_flags"
   ],
   "note": ""
  },
  {
   "property": "C17",
   "status": "proved",
   "theorems": [
    "C17_instruction",
    "C17_assigned",
    "C17_assigned_fb",
    "C17_assigned_fc",
    "C17_assigned_fd",
    "C17_unassigned",
    "C17_unassigned_fb",
    "C17_unassigned_fc",
    "C17_unassigned_fd",
    "C17_tables"
   ],
   "note": ""
  },
  {
   "property": "C18",
   "status": "proved",
   "theorems": [
    "C18_call_indirect",
    "C18_return_call_indirect",
    "C18_br_table",
    "C18_memory_init",
    "C18_memory_copy",
    "C18_table_init",
    "C18_table_copy",
    "C18_struct_get",
    "C18_struct_get_s",
    "C18_struct_get_u",
    "C18_struct_set",
    "C18_array_new_fixed",
    "C18_array_new_data",
    "C18_array_new_elem",
    "C18_array_copy",
    "C18_array_init_data",
    "C18_array_init_elem",
    "C18_v128_load8_lane",
    "C18_v128_load16_lane",
    "C18_v128_load32_lane",
    "C18_v128_load64_lane",
    "C18_v128_store8_lane",
    "C18_v128_store16_lane",
    "C18_v128_store32_lane",
    "C18_v128_store64_lane",
    "C18_br_on_cast",
    "C18_br_on_cast_fail",
    "C18_try_table",
    "C18_if_else",
    "C18_catch"
   ],
   "note": ""
  },
  {
   "property": "C19",
   "status": "proved",
   "theorems": [
    "C19_expr",
    "C19_unique",
    "C19_else_outside",
    "C19_else_inside",
    "C19_only_outside",
    "C19_only_inside"
   ],
   "note": ""
  },
  {
   "property": "C20",
   "status": "proved",
   "theorems": [
    "C20_order"
   ],
   "note": ""
  },
  {
   "property": "C21",
   "status": "proved",
   "theorems": [
    "C21_out_of_order",
    "C21_duplicate"
   ],
   "note": ""
  },
  {
   "property": "C22",
   "status": "proved",
   "theorems": [
    "C22_size_mismatch",
    "C22_custom_mismatch",
    "C22_fence",
    "C22_cut",
    "C22_entry_reported",
    "C22_entry_short",
    "C22_entry_fence"
   ],
   "note": ""
  },
  {
   "property": "C23",
   "status": "proved",
   "theorems": [
    "C23_functions",
    "C23_mismatch"
   ],
   "note": ""
  },
  {
   "property": "C24",
   "status": "proved",
   "theorems": [
    "C24_datacount",
    "C24_mismatch",
    "C24_missing"
   ],
   "note": ""
  },
  {
   "property": "C25",
   "status": "proved",
   "theorems": [
    "C25_data_index",
    "C25_rejected"
   ],
   "note": ""
  },
  {
   "property": "C26",
   "status": "proved",
   "theorems": [
    "C26_bound",
    "C26_expansion",
    "C26_out_of_bound",
    "C26_never"
   ],
   "note": ""
  },
  {
   "property": "C27",
   "status": "proved",
   "theorems": [
    "C27_insert",
    "C27_remove",
    "C27_errors"
   ],
   "note": ""
  },
  {
   "property": "C28",
   "status": "proved",
   "theorems": [
    "C28_customs"
   ],
   "note": ""
  },
  {
   "property": "C29",
   "status": "proved",
   "theorems": [
    "C29_layout",
    "C29_unique"
   ],
   "note": ""
  },
  {
   "property": "C30",
   "status": "proved",
   "theorems": [
    "C30_content",
    "C30_slice"
   ],
   "note": ""
  },
  {
   "property": "C31",
   "status": "proved",
   "theorems": [
    "C31_failure"
   ],
   "note": ""
  },
  {
   "property": "C32",
   "status": "proved",
   "theorems": [
    "C32_refuted",
    "C32_boundary"
   ],
   "note": "expectation refuted"
  },
  {
   "property": "C33",
   "status": "proved",
   "theorems": [
    "C33_cause",
    "C33_prefix",
    "C33_honest"
   ],
   "note": "naive expectation refuted (C33_ex: a failure inside a block type starting 0x63/0x64 is swallowed); exact trichotomy proved"
  },
  {
   "property": "C34",
   "status": "proved",
   "theorems": [
    "C34_panics",
    "C34_no_panic"
   ],
   "note": ""
  },
  {
   "property": "C35",
   "status": "proved",
   "theorems": [
    "C35_terminates"
   ],
   "note": ""
  },
  {
   "property": "C36",
   "status": "proved",
   "theorems": [
    "C36_enough",
    "C36_needed",
    "C36_locals_needed",
    "C36_exact",
    "C36_refuted",
    "C36_failure"
   ],
   "note": "expectation refuted for malformed inputs (C36_refuted), proved for modules (C36_enough), with the exact condition (C36_exact). Heap is counted in elements of the vector allocated, not in bytes; growth by push and by read_to_end is charged."
  },
  {
   "property": "C37",
   "status": "proved",
   "theorems": [
    "C37_exact",
    "C37_refuted"
   ],
   "note": "exact characterisation; the expectation that every module decodes on every stack is refuted (C37_refuted)"
  },
  {
   "property": "C38",
   "status": "proved",
   "theorems": [
    "C38_linear",
    "C38_refuted"
   ],
   "note": "linear except for locals; refuted for locals (C38_refuted)"
  },
  {
   "property": "C39",
   "status": "proved",
   "theorems": [
    "C39_elem",
    "C39_element_section",
    "C39_bad_bitfield"
   ],
   "note": ""
  },
  {
   "property": "C40",
   "status": "proved",
   "theorems": [
    "C40_data",
    "C40_data_section",
    "C40_bad_bitfield"
   ],
   "note": ""
  },
  {
   "property": "C41",
   "status": "proved",
   "theorems": [
    "C41_table",
    "C41_table_section",
    "C41_lookahead"
   ],
   "note": ""
  },
  {
   "property": "C42",
   "status": "proved",
   "theorems": [
    "C42_import",
    "C42_import_section",
    "C42_export",
    "C42_export_section",
    "C42_bad_export"
   ],
   "note": ""
  },
  {
   "property": "C43",
   "status": "proved",
   "theorems": [
    "C43_short",
    "C43_wrong",
    "C43_only",
    "C43_accepted"
   ],
   "note": ""
  },
  {
   "property": "C44",
   "status": "proved",
   "theorems": [
    "C44_truncation",
    "C44_inside",
    "C44_error"
   ],
   "note": ""
  },
  {
   "property": "C45",
   "status": "proved",
   "theorems": [
    "C45_sound",
    "C45_complete",
    "C45_exact"
   ],
   "note": "exact; the sizes recorded in the section headers are characterised by can_take (lengths of encodings of the contents)"
  },
  {
   "property": "C46",
   "status": "proved",
   "theorems": [
    "C46_limits"
   ],
   "note": ""
  },
  {
   "property": "C47",
   "status": "proved",
   "theorems": [
    "C47_module",
    "C47_fault",
    "C47_open",
    "C47_status",
    "C47_total",
    "C47_shown",
    "C47_root"
   ],
   "note": "status and report exact; 'root cause always printed' refuted (C47_hidden), proved when no level is detached (C47_root). clap argument parsing is outside; io/utf8 message texts are abstract parameters (class Texts); Debug texts see C58, C59"
  },
  {
   "property": "C48",
   "status": "proved",
   "theorems": [
    "C48_error",
    "C48_error_slice",
    "C48_decided"
   ],
   "note": ""
  },
  {
   "property": "C49",
   "status": "proved",
   "theorems": [
    "C49_slice",
    "C49_events"
   ],
   "note": ""
  },
  {
   "property": "C50",
   "status": "proved",
   "theorems": [
    "C50_exact",
    "C50_sound",
    "C50_total",
    "C50_unique"
   ],
   "note": ""
  },
  {
   "property": "C51",
   "status": "proved",
   "theorems": [
    "C51_final"
   ],
   "note": ""
  },
  {
   "property": "C52",
   "status": "proved",
   "theorems": [
    "C52_u32",
    "C52_u64",
    "C52_i32",
    "C52_i64",
    "C52_s33",
    "C52_byte_vector",
    "C52_name",
    "C52_heaptype",
    "C52_reftype",
    "C52_valtype",
    "C52_resulttype",
    "C52_globaltype",
    "C52_storagetype",
    "C52_fieldtype",
    "C52_comptype",
    "C52_subtype",
    "C52_rectype",
    "C52_limits",
    "C52_memtype",
    "C52_tabletype",
    "C52_tagtype",
    "C52_externtype",
    "C52_memarg",
    "C52_blocktype",
    "C52_catch",
    "C52_expr",
    "C52_import",
    "C52_table",
    "C52_global",
    "C52_export",
    "C52_elem",
    "C52_data",
    "C52_code",
    "C52_instr",
    "C52_contents"
   ],
   "note": "custom section contents covered by C50 rather than C52_contents"
  },
  {
   "property": "C53",
   "status": "proved",
   "theorems": [
    "C53_shortest",
    "C53_same",
    "C53_canonical",
    "C53_resources"
   ],
   "note": ""
  },
  {
   "property": "C54",
   "status": "proved",
   "theorems": [
    "C54_equal",
    "C54_again",
    "C54_symmetric",
    "C54_transitive",
    "C54_identity",
    "C54_no_floats"
   ],
   "note": "[==] modelled as rustc derives it (Model/Eq.v), IEEE values specified independently (Spec/Equal.v). C54_nan and C54_sizes are concrete refutations of the naive expectations."
  },
  {
   "property": "C55",
   "status": "proved",
   "theorems": [
    "C55_calls",
    "C55_bound",
    "C55_position"
   ],
   "note": "For types that keep the default read_exact; see C60 for others."
  },
  {
   "property": "C56",
   "status": "proved",
   "theorems": [
    "C56_forwarded",
    "C56_linked",
    "C56_hidden",
    "C56_root",
    "C56_text",
    "C56_numbers",
    "C56_packtype",
    "C56_preamble"
   ],
   "note": "The theorem statements were generated from the attributes in the Rust source by a script, not from the model."
  },
  {
   "property": "C57",
   "status": "proved",
   "theorems": [
    "C57_any",
    "C57_fault",
    "C57_replay",
    "C57_module",
    "C57_error",
    "C57_panics",
    "C57_halts",
    "C57_serves",
    "C57_complete"
   ],
   "note": "For types that keep the default read_exact; see C60 for others. An overriding read_to_end or read_vectored is never called: section bodies are read through Take. C57_halts, C57_serves and C57_complete assume the contract of read; C57_any, C57_fault, C57_module, C57_error, C57_panics do not."
  },
  {
   "property": "C58",
   "status": "proved",
   "theorems": [
    "C58_exact",
    "C58_identifies",
    "C58_cli",
    "C58_nans"
   ],
   "note": "Exact up to NaNs (C58_nans: concrete refutation of full identification). The Debug texts of f32, f64, str are parameters; Spec/Debug.v: readable says what is required of them, sample_readable is an instance."
  },
  {
   "property": "C59",
   "status": "proved",
   "theorems": [
    "C59_exact",
    "C59_cli"
   ],
   "note": "As C58; io::Error is its kind in the model, so its Debug text is required to show at least the kind."
  },
  {
   "property": "C60",
   "status": "proved",
   "theorems": [
    "C60_default",
    "C60_default_contract",
    "C60_any",
    "C60_module",
    "C60_error",
    "C60_panics",
    "C60_halts",
    "C60_serves",
    "C60_complete",
    "C60_slice",
    "C60_buffered",
    "C60_transparent",
    "C60_cli",
    "C60_open"
   ],
   "note": "read_exact of a reader may report UnexpectedEof for the end or for a failure of that kind; statements hold for both readings (eof). Overriding read_buf (unstable) is not modelled: Take's read_to_end is modelled through read."
  },
  {
   "property": "C61",
   "status": "proved",
   "theorems": [
    "C61_module",
    "C61_identifies",
    "C61_error",
    "C61_line",
    "C61_lines"
   ],
   "note": "As C58, C59. C61_lines: concrete refutation of \"an error is printed on one line\" (the hand-written Debug of DecodeListError asks for {:#?})."
  },
  {
   "property": "C62",
   "status": "proved",
   "theorems": [
    "C62_truth",
    "C62_total",
    "C62_zero",
    "C62_one",
    "C62_codes",
    "C62_willing",
    "C62_quiet",
    "C62_cli"
   ],
   "note": "C62_full: concrete refutation of \"exit status 0 exactly if the input decodes\". std below println!/eprintln! is the abstract Stream of Spec/Print.v."
  },
  {
   "property": "C63",
   "status": "proved",
   "theorems": [
    "C63_module",
    "C63_error",
    "C63_compact_module",
    "C63_compact_error",
    "C63_packtype",
    "C63_cli",
    "C63_numbers"
   ],
   "note": "Spec/Shown.v was written by a script that parses the Rust type definitions, not from Model/Debug.v. Texts of floats, str and io::Error are parameters (readable; instance sample_readable)."
  },
  {
   "property": "C64",
   "status": "proved",
   "theorems": [
    "C64_own",
    "C64_absent",
    "C64_all",
    "C64_swap",
    "C64_drop"
   ],
   "note": "Custom sections: C27 (insertion and removal). C64_all shows that the parts compared leave nothing out."
  },
  {
   "property": "C65",
   "status": "proved",
   "theorems": [
    "C65_plain",
    "C65_causes",
    "C65_rows"
   ],
   "note": "The texts std prints are parameters: an I/O error and its causes (at most `depth`) and a UTF-8 error take a printable line each (one_liners; instance sample_one_liners, depth 0), and Debug of str escapes control characters (readable). C65_deepest, C65_longest: the bounds are met. Bytes from 128 up count as printable (UTF-8). C65_rows and C65_causes are without --verbose; the Debug text has as many rows as the tree has lines (C63)."
  },
  {
   "property": "C66",
   "status": "proved",
   "theorems": [
    "C66_entries",
    "C66_own",
    "C66_put",
    "C66_replace"
   ],
   "note": "Bentry collects the entry grammars of Spec/Module.v. C66_own: also across files and readers. Custom sections: C27, C64."
  },
  {
   "property": "C67",
   "status": "proved",
   "theorems": [
    "C67_order",
    "C67_lawful",
    "C67_ascending",
    "C67_every",
    "C67_errors"
   ],
   "note": "The derived PartialOrd compares positions in the declaration; the provided methods <, <=, >, >= are modelled as in core::cmp."
  },
  {
   "property": "C68",
   "status": "proved",
   "theorems": [
    "C68_section",
    "C68_alone",
    "C68_exact",
    "C68_entry",
    "C68_entry_alone"
   ],
   "note": "an error about an entry may also depend on the bytes after it in the section (a truncated entry reads on)"
  },
  {
   "property": "C69",
   "status": "proved",
   "theorems": [
    "C69_consistent",
    "C69_limits",
    "C69_comptype",
    "C69_tagtype",
    "C69_externtype",
    "C69_catch",
    "C69_elemkind",
    "C69_table",
    "C69_global_mutability",
    "C69_field_mutability",
    "C69_export",
    "C69_data_kind",
    "C69_section_id",
    "C69_reftype",
    "C69_valtype",
    "C69_reftype_incomplete",
    "C69_valtype_incomplete"
   ],
   "note": "the converse is refuted for reference and value types (C69_reftype_incomplete, C69_valtype_incomplete): C69_reftype and C69_valtype say which values are accepted but not named"
  },
  {
   "property": "C70",
   "status": "proved",
   "theorems": [
    "C70_located",
    "C70_total",
    "C70_unique",
    "C70_refused",
    "C70_before",
    "C70_incomplete",
    "C70_invalid",
    "C70_range",
    "C70_text",
    "C70_error",
    "C70_debug",
    "C70_readable",
    "C70_one_liners"
   ],
   "note": "std is modelled by hand from library/core/src/str (it is not in /repo)"
  },
  {
   "property": "C71",
   "status": "proved",
   "theorems": [
    "C71_exact",
    "C71_instruction",
    "C71_module",
    "C71_shallow",
    "C71_deep",
    "C71_error",
    "C71_utf8",
    "C71_silent",
    "C71_verbose",
    "C71_failure",
    "C71_refuted",
    "C71_same_stack"
   ],
   "note": "Stack is counted in nested Debug calls, each a bounded number of Rust frames; the decoder's is counted in nested Instruction::parse calls (C37), so the ratio between the two is in levels, not bytes. C71_refuted and C71_same_stack state that no bound independent of nesting exists."
  },
  {
   "property": "C72",
   "status": "proved",
   "theorems": [
    "C72_rows",
    "C72_decoded",
    "C72_cli",
    "C72_locals",
    "C72_error",
    "C72_error_constant",
    "C72_utf8",
    "C72_indent",
    "C72_quadratic"
   ],
   "note": "The linear bound in bytes of output that one would expect is false: C72_locals and C72_quadratic refute it. The bound that holds is in lines, with locals counted; C72_indent bounds indentation."
  }
 ]
}