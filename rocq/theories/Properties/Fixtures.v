(** Validation of the model against the repository's own test suite: every
    fixture of tests/fixtures (generated from the files), with the result that
    the test in tests/tests.rs or tests/error_types.rs expects.  The expected
    modules are translations of the Rust expressions in tests/tests.rs; the
    expected errors were compared, variant by variant, with the patterns in
    tests/error_types.rs.  These are tests of the model, not proofs. *)
From Verif Require Import Model.Prelude Model.Io Model.Ast Model.Errors Model.Module Properties.Samples.

Definition decoded (bs : list byte) := fst (@decode_module roomy _ _ bs).

(** tests/fixtures/add.wasm *)
Definition fx_add : list byte :=
  [x00; x61; x73; x6d; x01; x00; x00; x00; x01; x07; x01; x60; x02; x7f; x7f; x01; x7f; x03; x02; x01; x00; x07; x07; x01; x03; x61; x64; x64; x00; x00; x0a; x09; x01; x07; x00; x20; x00; x20; x01; x6a; x0b].
(** tests/fixtures/aggregate_instructions_gc.wasm *)
Definition fx_aggregate_instructions_gc : list byte :=
  [x00; x61; x73; x6d; x01; x00; x00; x00; x01; x12; x04; x5f; x03; x7f; x00; x78; x01; x77; x00; x5e; x78; x00; x5e; x7f; x00; x60; x00; x00; x03; x02; x01; x03; x0c; x01; x00; x0a; x53; x01; x51; x00; xfb; x00; x00; xfb; x01; x00; xfb; x02; x00; x00; xfb; x03; x00; x01; xfb; x04; x00; x02; xfb; x05; x00; x00; xfb; x06; x01; xfb; x07; x01; xfb; x08; x01; x03; xfb; x09; x01; x00; xfb; x0a; x01; x00; xfb; x0b; x02; xfb; x0c; x01; xfb; x0d; x01; xfb; x0e; x01; xfb; x0f; xfb; x10; x01; xfb; x11; x01; x02; xfb; x12; x01; x00; xfb; x13; x01; x00; xfb; x1a; xfb; x1b; xfb; x1c; xfb; x1d; xfb; x1e; x0b].
(** tests/fixtures/code_section_size_underreported.wasm *)
Definition fx_code_section_size_underreported : list byte :=
  [x00; x61; x73; x6d; x01; x00; x00; x00; x01; x05; x01; x60; x00; x01; x7f; x03; x02; x01; x00; x07; x0a; x01; x06; x61; x6e; x73; x77; x65; x72; x00; x00; x0a; x05; x01; x04; x00; x41; x2a; x0b].
(** tests/fixtures/control_instructions.wasm *)
Definition fx_control_instructions : list byte :=
  [x00; x61; x73; x6d; x01; x00; x00; x00; x01; x09; x02; x60; x00; x00; x60; x00; x02; x7f; x7f; x02; x19; x02; x03; x65; x6e; x76; x04; x74; x61; x67; x30; x04; x00; x00; x03; x65; x6e; x76; x04; x74; x61; x67; x31; x04; x00; x00; x03; x03; x02; x00; x00; x04; x04; x01; x70; x00; x01; x07; x0b; x01; x07; x63; x6f; x6e; x74; x72; x6f; x6c; x00; x01; x0a; x52; x02; x02; x00; x0b; x4d; x00; x01; x02; x40; x00; x0b; x02; x40; x03; x40; x0c; x01; x0b; x0b; x02; x40; x41; x00; x0d; x00; x0b; x02; x40; x41; x00; x0e; x01; x00; x00; x0b; x02; x40; x41; x00; x04; x40; x00; x05; x01; x0b; x0b; x02; x01; x41; x2a; x41; x07; x0b; x1a; x1a; x10; x00; x41; x00; x11; x00; x00; x08; x01; x0a; x1f; x40; x04; x00; x01; x01; x01; x01; x01; x02; x01; x03; x01; x00; x0b; x0f; x0b].
(** tests/fixtures/custom_section_size_overreported.wasm *)
Definition fx_custom_section_size_overreported : list byte :=
  [x00; x61; x73; x6d; x01; x00; x00; x00; x01; x05; x01; x60; x00; x01; x7f; x03; x02; x01; x00; x07; x0a; x01; x06; x61; x6e; x73; x77; x65; x72; x00; x00; x0a; x06; x01; x04; x00; x41; x2a; x0b; x00; x05; x01; x78; xff].
(** tests/fixtures/data_section_multi_segment.wasm *)
Definition fx_data_section_multi_segment : list byte :=
  [x00; x61; x73; x6d; x01; x00; x00; x00; x05; x03; x01; x00; x01; x0b; x0e; x02; x80; x00; x41; x00; x0b; x01; x41; x00; x41; x01; x0b; x01; x42].
(** tests/fixtures/element_section_all_alts.wasm *)
Definition fx_element_section_all_alts : list byte :=
  [x00; x61; x73; x6d; x01; x00; x00; x00; x01; x04; x01; x60; x00; x00; x03; x07; x06; x00; x00; x00; x00; x00; x00; x04; x07; x02; x70; x00; x0c; x70; x00; x0c; x09; x43; x08; x00; x41; x00; x0b; x02; x00; x01; x01; x00; x02; x02; x03; x02; x01; x41; x01; x0b; x00; x01; x04; x03; x00; x01; x05; x04; x41; x06; x0b; x02; xd2; x00; x0b; xd0; x70; x0b; x05; x70; x02; xd2; x01; x0b; xd0; x70; x0b; x06; x01; x41; x03; x0b; x70; x02; xd2; x02; x0b; xd0; x70; x0b; x07; x70; x02; xd0; x70; x0b; xd2; x03; x0b; x0a; x13; x06; x02; x00; x0b; x02; x00; x0b; x02; x00; x0b; x02; x00; x0b; x02; x00; x0b; x02; x00; x0b].
(** tests/fixtures/empty.wasm *)
Definition fx_empty : list byte :=
  [x00; x61; x73; x6d; x01; x00; x00; x00].
(** tests/fixtures/global_section_invalid_mutability_byte.wasm *)
Definition fx_global_section_invalid_mutability_byte : list byte :=
  [x00; x61; x73; x6d; x01; x00; x00; x00; x06; x06; x01; x7f; xff; x41; x00; x0b].
(** tests/fixtures/imports_table_mem_global.wasm *)
Definition fx_imports_table_mem_global : list byte :=
  [x00; x61; x73; x6d; x01; x00; x00; x00; x02; x3f; x04; x03; x65; x6e; x76; x05; x74; x61; x62; x6c; x65; x01; x70; x00; x01; x03; x65; x6e; x76; x06; x6d; x65; x6d; x6f; x72; x79; x02; x00; x01; x03; x65; x6e; x76; x08; x67; x6c; x6f; x62; x61; x6c; x5f; x69; x03; x7f; x00; x03; x65; x6e; x76; x0a; x67; x6c; x6f; x62; x61; x6c; x5f; x6d; x75; x74; x03; x7e; x01].
(** tests/fixtures/imports_with_tag_func.wasm *)
Definition fx_imports_with_tag_func : list byte :=
  [x00; x61; x73; x6d; x01; x00; x00; x00; x01; x0a; x02; x60; x01; x7f; x01; x7f; x60; x01; x7f; x00; x02; x19; x02; x03; x65; x6e; x76; x05; x66; x75; x6e; x63; x30; x00; x00; x03; x65; x6e; x76; x04; x74; x61; x67; x30; x04; x00; x01].
(** tests/fixtures/kitchensink.wasm *)
Definition fx_kitchensink : list byte :=
  [x00; x61; x73; x6d; x01; x00; x00; x00; x00; x07; x04; x6e; x6f; x74; x65; x68; x69; x01; x0a; x02; x60; x00; x00; x60; x02; x7f; x7f; x01; x7f; x02; x10; x01; x03; x65; x6e; x76; x08; x69; x6d; x70; x73; x74; x61; x72; x74; x00; x00; x03; x03; x02; x00; x01; x04; x04; x01; x70; x00; x01; x05; x03; x01; x00; x01; x06; x06; x01; x7f; x01; x41; x2a; x0b; x07; x18; x04; x03; x61; x64; x64; x00; x02; x03; x6d; x65; x6d; x02; x00; x03; x74; x61; x62; x01; x00; x02; x67; x30; x03; x00; x08; x01; x01; x09; x07; x01; x00; x41; x00; x0b; x01; x02; x0a; x0e; x02; x04; x00; x10; x00; x0b; x07; x00; x20; x00; x20; x01; x6a; x0b; x0b; x0a; x01; x00; x41; x00; x0b; x04; x00; x11; x22; x33].
(** tests/fixtures/malformed/block_missing_blocktype.wasm *)
Definition fx_malformed_block_missing_blocktype : list byte :=
  [x00; x61; x73; x6d; x01; x00; x00; x00; x01; x04; x01; x60; x00; x00; x03; x02; x01; x00; x0a; x04; x01; x02; x00; x02].
(** tests/fixtures/malformed/block_unexpected_else.wasm *)
Definition fx_malformed_block_unexpected_else : list byte :=
  [x00; x61; x73; x6d; x01; x00; x00; x00; x01; x04; x01; x60; x00; x00; x03; x02; x01; x00; x0a; x08; x01; x06; x00; x02; x40; x05; x0b; x0b].
(** tests/fixtures/malformed/blocktype_index_truncated.wasm *)
Definition fx_malformed_blocktype_index_truncated : list byte :=
  [x00; x61; x73; x6d; x01; x00; x00; x00; x01; x04; x01; x60; x00; x00; x03; x02; x01; x00; x0a; x05; x01; x03; x00; x02; x80].
(** tests/fixtures/malformed/blocktype_negative_typeidx.wasm *)
Definition fx_malformed_blocktype_negative_typeidx : list byte :=
  [x00; x61; x73; x6d; x01; x00; x00; x00; x01; x04; x01; x60; x00; x00; x03; x02; x01; x00; x0a; x06; x01; x04; x00; x02; x5f; x0b].
(** tests/fixtures/malformed/br_labelidx_overlong.wasm *)
Definition fx_malformed_br_labelidx_overlong : list byte :=
  [x00; x61; x73; x6d; x01; x00; x00; x00; x01; x04; x01; x60; x00; x00; x03; x02; x01; x00; x0a; x0a; x01; x08; x00; x0c; x80; x80; x80; x80; x80; x0b].
(** tests/fixtures/malformed/br_on_cast_invalid_nullability.wasm *)
Definition fx_malformed_br_on_cast_invalid_nullability : list byte :=
  [x00; x61; x73; x6d; x01; x00; x00; x00; x01; x04; x01; x60; x00; x00; x03; x02; x01; x00; x0a; x07; x01; x05; x00; xfb; x18; x04; x0b].
(** tests/fixtures/malformed/br_table_labelidxvector_overlong.wasm *)
Definition fx_malformed_br_table_labelidxvector_overlong : list byte :=
  [x00; x61; x73; x6d; x01; x00; x00; x00; x01; x04; x01; x60; x00; x00; x03; x02; x01; x00; x0a; x0c; x01; x0a; x00; x0e; x01; x80; x80; x80; x80; x80; x00; x0b].
(** tests/fixtures/malformed/call_indirect_tableidx_overlong.wasm *)
Definition fx_malformed_call_indirect_tableidx_overlong : list byte :=
  [x00; x61; x73; x6d; x01; x00; x00; x00; x01; x04; x01; x60; x00; x00; x03; x02; x01; x00; x0a; x0b; x01; x09; x00; x11; x00; x80; x80; x80; x80; x80; x0b].
(** tests/fixtures/malformed/call_indirect_typeidx_overlong.wasm *)
Definition fx_malformed_call_indirect_typeidx_overlong : list byte :=
  [x00; x61; x73; x6d; x01; x00; x00; x00; x01; x04; x01; x60; x00; x00; x03; x02; x01; x00; x0a; x0b; x01; x09; x00; x11; x80; x80; x80; x80; x80; x00; x0b].
(** tests/fixtures/malformed/code_body_missing_opcode.wasm *)
Definition fx_malformed_code_body_missing_opcode : list byte :=
  [x00; x61; x73; x6d; x01; x00; x00; x00; x01; x04; x01; x60; x00; x00; x03; x02; x01; x00; x0a; x04; x01; x02; x00; x00].
(** tests/fixtures/malformed/code_func_len_mismatch.wasm *)
Definition fx_malformed_code_func_len_mismatch : list byte :=
  [x00; x61; x73; x6d; x01; x00; x00; x00; x01; x04; x01; x60; x00; x00; x03; x02; x01; x00; x0a; x01; x00].
(** tests/fixtures/malformed/code_section_entry_size_mismatch.wasm *)
Definition fx_malformed_code_section_entry_size_mismatch : list byte :=
  [x00; x61; x73; x6d; x01; x00; x00; x00; x01; x04; x01; x60; x00; x00; x03; x02; x01; x00; x0a; x05; x01; x03; x00; x0b; x00].
(** tests/fixtures/malformed/code_section_function_size_truncated.wasm *)
Definition fx_malformed_code_section_function_size_truncated : list byte :=
  [x00; x61; x73; x6d; x01; x00; x00; x00; x01; x04; x01; x60; x00; x00; x03; x02; x01; x00; x0a; x01; x01].
(** tests/fixtures/malformed/code_section_local_valtype_invalid.wasm *)
Definition fx_malformed_code_section_local_valtype_invalid : list byte :=
  [x00; x61; x73; x6d; x01; x00; x00; x00; x01; x04; x01; x60; x00; x00; x03; x02; x01; x00; x0a; x06; x01; x04; x01; x01; xff; x0b].
(** tests/fixtures/malformed/code_section_locals_count_decode_error.wasm *)
Definition fx_malformed_code_section_locals_count_decode_error : list byte :=
  [x00; x61; x73; x6d; x01; x00; x00; x00; x01; x04; x01; x60; x00; x00; x03; x02; x01; x00; x0a; x04; x01; x02; x01; x80].
(** tests/fixtures/malformed/code_section_locals_count_out_of_bounds.wasm *)
Definition fx_malformed_code_section_locals_count_out_of_bounds : list byte :=
  [x00; x61; x73; x6d; x01; x00; x00; x00; x01; x04; x01; x60; x00; x00; x03; x02; x01; x00; x0a; x0c; x01; x0a; x02; xff; xff; xff; xff; x0f; x7f; x01; x7f; x0b].
(** tests/fixtures/malformed/code_section_locals_vector_length_overlong.wasm *)
Definition fx_malformed_code_section_locals_vector_length_overlong : list byte :=
  [x00; x61; x73; x6d; x01; x00; x00; x00; x01; x04; x01; x60; x00; x00; x03; x02; x01; x00; x0a; x07; x01; x05; x80; x80; x80; x80; x80].
(** tests/fixtures/malformed/custom_name_invalid_utf8.wasm *)
Definition fx_malformed_custom_name_invalid_utf8 : list byte :=
  [x00; x61; x73; x6d; x01; x00; x00; x00; x00; x02; x01; xff].
(** tests/fixtures/malformed/custom_name_length_overlong.wasm *)
Definition fx_malformed_custom_name_length_overlong : list byte :=
  [x00; x61; x73; x6d; x01; x00; x00; x00; x00; x05; x80; x80; x80; x80; x80].
(** tests/fixtures/malformed/custom_name_truncated_bytes.wasm *)
Definition fx_malformed_custom_name_truncated_bytes : list byte :=
  [x00; x61; x73; x6d; x01; x00; x00; x00; x00; x02; x03; x61].
(** tests/fixtures/malformed/data_bitfield_decode_error.wasm *)
Definition fx_malformed_data_bitfield_decode_error : list byte :=
  [x00; x61; x73; x6d; x01; x00; x00; x00; x0b; x06; x01; x80; x80; x80; x80; x80].
(** tests/fixtures/malformed/data_count_datas_len_mismatch.wasm *)
Definition fx_malformed_data_count_datas_len_mismatch : list byte :=
  [x00; x61; x73; x6d; x01; x00; x00; x00; x0c; x01; x01].
(** tests/fixtures/malformed/data_count_decode_error.wasm *)
Definition fx_malformed_data_count_decode_error : list byte :=
  [x00; x61; x73; x6d; x01; x00; x00; x00; x0c; x05; x80; x80; x80; x80; x80].
(** tests/fixtures/malformed/data_count_mismatch.wasm *)
Definition fx_malformed_data_count_mismatch : list byte :=
  [x00; x61; x73; x6d; x01; x00; x00; x00; x0c; x01; x01; x0b; x01; x00].
(** tests/fixtures/malformed/data_drop_dataidx_overlong.wasm *)
Definition fx_malformed_data_drop_dataidx_overlong : list byte :=
  [x00; x61; x73; x6d; x01; x00; x00; x00; x01; x04; x01; x60; x00; x00; x03; x02; x01; x00; x0a; x0b; x01; x09; x00; xfc; x09; x80; x80; x80; x80; x80; x0b].
(** tests/fixtures/malformed/data_index_without_data_count.wasm *)
Definition fx_malformed_data_index_without_data_count : list byte :=
  [x00; x61; x73; x6d; x01; x00; x00; x00; x01; x04; x01; x60; x00; x00; x03; x02; x01; x00; x0a; x08; x01; x06; x00; xfc; x08; x00; x00; x0b].
(** tests/fixtures/malformed/data_index_without_data_count_nested_controls.wasm *)
Definition fx_malformed_data_index_without_data_count_nested_controls : list byte :=
  [x00; x61; x73; x6d; x01; x00; x00; x00; x01; x04; x01; x60; x00; x00; x03; x02; x01; x00; x0a; x38; x01; x36; x00; x02; x40; x03; x40; x04; x40; x1f; x40; x01; x02; x00; xfc; x08; x00; x00; xfc; x09; x00; xfb; x09; x00; x00; xfb; x12; x00; x00; x0b; x05; x1f; x40; x01; x02; x00; xfb; x12; x00; x00; xfb; x09; x00; x00; xfc; x09; x00; xfc; x08; x00; x00; x0b; x0b; x0b; x0b; x0b].
(** tests/fixtures/malformed/data_init_vector_truncated.wasm *)
Definition fx_malformed_data_init_vector_truncated : list byte :=
  [x00; x61; x73; x6d; x01; x00; x00; x00; x0b; x04; x01; x01; x02; x41].
(** tests/fixtures/malformed/data_invalid_bitfield.wasm *)
Definition fx_malformed_data_invalid_bitfield : list byte :=
  [x00; x61; x73; x6d; x01; x00; x00; x00; x0b; x02; x01; x03].
(** tests/fixtures/malformed/data_offset_expr_missing.wasm *)
Definition fx_malformed_data_offset_expr_missing : list byte :=
  [x00; x61; x73; x6d; x01; x00; x00; x00; x0b; x02; x01; x00].
(** tests/fixtures/malformed/data_section_memidx_overlong.wasm *)
Definition fx_malformed_data_section_memidx_overlong : list byte :=
  [x00; x61; x73; x6d; x01; x00; x00; x00; x0b; x07; x01; x02; x80; x80; x80; x80; x80].
(** tests/fixtures/malformed/duplicate_type_section.wasm *)
Definition fx_malformed_duplicate_type_section : list byte :=
  [x00; x61; x73; x6d; x01; x00; x00; x00; x01; x01; x00; x01; x01; x00].
(** tests/fixtures/malformed/elem_drop_elemidx_overlong.wasm *)
Definition fx_malformed_elem_drop_elemidx_overlong : list byte :=
  [x00; x61; x73; x6d; x01; x00; x00; x00; x01; x04; x01; x60; x00; x00; x03; x02; x01; x00; x0a; x0b; x01; x09; x00; xfc; x0d; x80; x80; x80; x80; x80; x0b].
(** tests/fixtures/malformed/element_bitfield_decode_error.wasm *)
Definition fx_malformed_element_bitfield_decode_error : list byte :=
  [x00; x61; x73; x6d; x01; x00; x00; x00; x09; x06; x01; x80; x80; x80; x80; x80].
(** tests/fixtures/malformed/element_elemkind_invalid.wasm *)
Definition fx_malformed_element_elemkind_invalid : list byte :=
  [x00; x61; x73; x6d; x01; x00; x00; x00; x09; x03; x01; x01; x01].
(** tests/fixtures/malformed/element_elemkind_io.wasm *)
Definition fx_malformed_element_elemkind_io : list byte :=
  [x00; x61; x73; x6d; x01; x00; x00; x00; x09; x02; x01; x01].
(** tests/fixtures/malformed/element_expression_missing_opcode.wasm *)
Definition fx_malformed_element_expression_missing_opcode : list byte :=
  [x00; x61; x73; x6d; x01; x00; x00; x00; x09; x03; x01; x02; x00].
(** tests/fixtures/malformed/element_funcidx_vector_overlong.wasm *)
Definition fx_malformed_element_funcidx_vector_overlong : list byte :=
  [x00; x61; x73; x6d; x01; x00; x00; x00; x09; x09; x01; x01; x00; x01; x80; x80; x80; x80; x10].
(** tests/fixtures/malformed/element_init_decode_length.wasm *)
Definition fx_malformed_element_init_decode_length : list byte :=
  [x00; x61; x73; x6d; x01; x00; x00; x00; x09; x08; x01; x04; x0b; x80; x80; x80; x80; x80].
(** tests/fixtures/malformed/element_invalid_bitfield.wasm *)
Definition fx_malformed_element_invalid_bitfield : list byte :=
  [x00; x61; x73; x6d; x01; x00; x00; x00; x09; x02; x01; x09].
(** tests/fixtures/malformed/element_offset_expr_missing.wasm *)
Definition fx_malformed_element_offset_expr_missing : list byte :=
  [x00; x61; x73; x6d; x01; x00; x00; x00; x09; x02; x01; x00].
(** tests/fixtures/malformed/element_reftype_invalid.wasm *)
Definition fx_malformed_element_reftype_invalid : list byte :=
  [x00; x61; x73; x6d; x01; x00; x00; x00; x09; x03; x01; x05; x00].
(** tests/fixtures/malformed/element_tableidx_overlong.wasm *)
Definition fx_malformed_element_tableidx_overlong : list byte :=
  [x00; x61; x73; x6d; x01; x00; x00; x00; x09; x0a; x01; x02; x80; x80; x80; x80; x10; x0b; x00; x00].
(** tests/fixtures/malformed/export_descriptor_missing_byte.wasm *)
Definition fx_malformed_export_descriptor_missing_byte : list byte :=
  [x00; x61; x73; x6d; x01; x00; x00; x00; x07; x03; x01; x01; x78].
(** tests/fixtures/malformed/export_index_decode_error.wasm *)
Definition fx_malformed_export_index_decode_error : list byte :=
  [x00; x61; x73; x6d; x01; x00; x00; x00; x07; x09; x01; x01; x78; x00; x80; x80; x80; x80; x10].
(** tests/fixtures/malformed/export_invalid_descriptor.wasm *)
Definition fx_malformed_export_invalid_descriptor : list byte :=
  [x00; x61; x73; x6d; x01; x00; x00; x00; x07; x05; x01; x01; x78; xff; x00].
(** tests/fixtures/malformed/export_name_decode_error.wasm *)
Definition fx_malformed_export_name_decode_error : list byte :=
  [x00; x61; x73; x6d; x01; x00; x00; x00; x07; x06; x01; x80; x80; x80; x80; x80].
(** tests/fixtures/malformed/expression_unexpected_else.wasm *)
Definition fx_malformed_expression_unexpected_else : list byte :=
  [x00; x61; x73; x6d; x01; x00; x00; x00; x01; x04; x01; x60; x00; x00; x03; x02; x01; x00; x0a; x04; x01; x02; x00; x05].
(** tests/fixtures/malformed/f32_const_truncated.wasm *)
Definition fx_malformed_f32_const_truncated : list byte :=
  [x00; x61; x73; x6d; x01; x00; x00; x00; x01; x04; x01; x60; x00; x00; x03; x02; x01; x00; x0a; x06; x01; x04; x00; x43; x00; x00].
(** tests/fixtures/malformed/fc_invalid_marker.wasm *)
Definition fx_malformed_fc_invalid_marker : list byte :=
  [x00; x61; x73; x6d; x01; x00; x00; x00; x01; x04; x01; x60; x00; x00; x03; x02; x01; x00; x0a; x07; x01; x05; x00; xfc; xff; x01; x0b].
(** tests/fixtures/malformed/function_call_funcidx_overlong.wasm *)
Definition fx_malformed_function_call_funcidx_overlong : list byte :=
  [x00; x61; x73; x6d; x01; x00; x00; x00; x01; x04; x01; x60; x00; x00; x03; x02; x01; x00; x0a; x0a; x01; x08; x00; x10; x80; x80; x80; x80; x80; x0b].
(** tests/fixtures/malformed/function_section_typeidx_overlong.wasm *)
Definition fx_malformed_function_section_typeidx_overlong : list byte :=
  [x00; x61; x73; x6d; x01; x00; x00; x00; x01; x01; x00; x03; x06; x01; x80; x80; x80; x80; x80].
(** tests/fixtures/malformed/global_get_globalidx_overlong.wasm *)
Definition fx_malformed_global_get_globalidx_overlong : list byte :=
  [x00; x61; x73; x6d; x01; x00; x00; x00; x01; x04; x01; x60; x00; x00; x03; x02; x01; x00; x0a; x0a; x01; x08; x00; x23; x80; x80; x80; x80; x80; x0b].
(** tests/fixtures/malformed/global_section_init_missing_expr.wasm *)
Definition fx_malformed_global_section_init_missing_expr : list byte :=
  [x00; x61; x73; x6d; x01; x00; x00; x00; x06; x03; x01; x7f; x00].
(** tests/fixtures/malformed/global_section_invalid_mutability.wasm *)
Definition fx_malformed_global_section_invalid_mutability : list byte :=
  [x00; x61; x73; x6d; x01; x00; x00; x00; x06; x03; x01; x7f; x02].
(** tests/fixtures/malformed/global_section_invalid_valtype.wasm *)
Definition fx_malformed_global_section_invalid_valtype : list byte :=
  [x00; x61; x73; x6d; x01; x00; x00; x00; x06; x02; x01; xff].
(** tests/fixtures/malformed/global_section_missing_mutability.wasm *)
Definition fx_malformed_global_section_missing_mutability : list byte :=
  [x00; x61; x73; x6d; x01; x00; x00; x00; x06; x02; x01; x7f].
(** tests/fixtures/malformed/global_set_truncated.wasm *)
Definition fx_malformed_global_set_truncated : list byte :=
  [x00; x61; x73; x6d; x01; x00; x00; x00; x01; x04; x01; x60; x00; x00; x03; x02; x01; x00; x0a; x04; x01; x02; x00; x24].
(** tests/fixtures/malformed/i32_const_representation_too_long.wasm *)
Definition fx_malformed_i32_const_representation_too_long : list byte :=
  [x00; x61; x73; x6d; x01; x00; x00; x00; x01; x04; x01; x60; x00; x00; x03; x02; x01; x00; x0a; x0a; x01; x08; x00; x41; x80; x80; x80; x80; x80; x0b].
(** tests/fixtures/malformed/i32_const_too_large.wasm *)
Definition fx_malformed_i32_const_too_large : list byte :=
  [x00; x61; x73; x6d; x01; x00; x00; x00; x01; x04; x01; x60; x00; x00; x03; x02; x01; x00; x0a; x0a; x01; x08; x00; x41; x80; x80; x80; x80; x08; x0b].
(** tests/fixtures/malformed/i32_const_truncated.wasm *)
Definition fx_malformed_i32_const_truncated : list byte :=
  [x00; x61; x73; x6d; x01; x00; x00; x00; x01; x04; x01; x60; x00; x00; x03; x02; x01; x00; x0a; x04; x01; x02; x00; x41].
(** tests/fixtures/malformed/i32_load_memarg_truncated_offset.wasm *)
Definition fx_malformed_i32_load_memarg_truncated_offset : list byte :=
  [x00; x61; x73; x6d; x01; x00; x00; x00; x01; x04; x01; x60; x00; x00; x03; x02; x01; x00; x0a; x05; x01; x03; x00; x28; x01].
(** tests/fixtures/malformed/i64_const_incorrect_sign_extension.wasm *)
Definition fx_malformed_i64_const_incorrect_sign_extension : list byte :=
  [x00; x61; x73; x6d; x01; x00; x00; x00; x01; x04; x01; x60; x00; x00; x03; x02; x01; x00; x0a; x0f; x01; x0d; x00; x42; x80; x80; x80; x80; x80; x80; x80; x80; x80; x01; x0b].
(** tests/fixtures/malformed/i64_const_representation_too_long.wasm *)
Definition fx_malformed_i64_const_representation_too_long : list byte :=
  [x00; x61; x73; x6d; x01; x00; x00; x00; x01; x04; x01; x60; x00; x00; x03; x02; x01; x00; x0a; x0f; x01; x0d; x00; x42; x80; x80; x80; x80; x80; x80; x80; x80; x80; x80; x0b].
(** tests/fixtures/malformed/i64_const_truncated.wasm *)
Definition fx_malformed_i64_const_truncated : list byte :=
  [x00; x61; x73; x6d; x01; x00; x00; x00; x01; x04; x01; x60; x00; x00; x03; x02; x01; x00; x0a; x04; x01; x02; x00; x42].
(** tests/fixtures/malformed/if_unexpected_else.wasm *)
Definition fx_malformed_if_unexpected_else : list byte :=
  [x00; x61; x73; x6d; x01; x00; x00; x00; x01; x04; x01; x60; x00; x00; x03; x02; x01; x00; x0a; x08; x01; x06; x00; x04; x40; x05; x05; x0b].
(** tests/fixtures/malformed/import_descriptor_missing_byte.wasm *)
Definition fx_malformed_import_descriptor_missing_byte : list byte :=
  [x00; x61; x73; x6d; x01; x00; x00; x00; x02; x05; x01; x01; x6d; x01; x6e].
(** tests/fixtures/malformed/import_entity_name_utf8_error.wasm *)
Definition fx_malformed_import_entity_name_utf8_error : list byte :=
  [x00; x61; x73; x6d; x01; x00; x00; x00; x02; x05; x01; x01; x6d; x01; xff].
(** tests/fixtures/malformed/import_global_invalid_mutability.wasm *)
Definition fx_malformed_import_global_invalid_mutability : list byte :=
  [x00; x61; x73; x6d; x01; x00; x00; x00; x02; x08; x01; x01; x6d; x01; x6e; x03; x7f; x02].
(** tests/fixtures/malformed/import_invalid_descriptor.wasm *)
Definition fx_malformed_import_invalid_descriptor : list byte :=
  [x00; x61; x73; x6d; x01; x00; x00; x00; x02; x06; x01; x01; x6d; x01; x6e; xff].
(** tests/fixtures/malformed/import_memory_invalid_limits.wasm *)
Definition fx_malformed_import_memory_invalid_limits : list byte :=
  [x00; x61; x73; x6d; x01; x00; x00; x00; x02; x07; x01; x01; x6d; x01; x6e; x02; x02].
(** tests/fixtures/malformed/import_module_name_decode_error.wasm *)
Definition fx_malformed_import_module_name_decode_error : list byte :=
  [x00; x61; x73; x6d; x01; x00; x00; x00; x02; x02; x01; x80].
(** tests/fixtures/malformed/import_table_invalid_reftype.wasm *)
Definition fx_malformed_import_table_invalid_reftype : list byte :=
  [x00; x61; x73; x6d; x01; x00; x00; x00; x02; x07; x01; x01; x6d; x01; x6e; x01; x00].
(** tests/fixtures/malformed/import_typeidx_overlong.wasm *)
Definition fx_malformed_import_typeidx_overlong : list byte :=
  [x00; x61; x73; x6d; x01; x00; x00; x00; x02; x0b; x01; x01; x6d; x01; x6e; x00; x80; x80; x80; x80; x10].
(** tests/fixtures/malformed/invalid_opcode_ff.wasm *)
Definition fx_malformed_invalid_opcode_ff : list byte :=
  [x00; x61; x73; x6d; x01; x00; x00; x00; x01; x04; x01; x60; x00; x00; x03; x02; x01; x00; x0a; x04; x01; x02; x00; xff].
(** tests/fixtures/malformed/invalid_section_id.wasm *)
Definition fx_malformed_invalid_section_id : list byte :=
  [x00; x61; x73; x6d; x01; x00; x00; x00; x0e].
(** tests/fixtures/malformed/local_get_localidx_overlong.wasm *)
Definition fx_malformed_local_get_localidx_overlong : list byte :=
  [x00; x61; x73; x6d; x01; x00; x00; x00; x01; x04; x01; x60; x00; x00; x03; x02; x01; x00; x0a; x0a; x01; x08; x00; x20; x80; x80; x80; x80; x80; x0b].
(** tests/fixtures/malformed/loop_unexpected_else.wasm *)
Definition fx_malformed_loop_unexpected_else : list byte :=
  [x00; x61; x73; x6d; x01; x00; x00; x00; x01; x04; x01; x60; x00; x00; x03; x02; x01; x00; x0a; x08; x01; x06; x00; x03; x40; x05; x0b; x0b].
(** tests/fixtures/malformed/memarg_align_missing.wasm *)
Definition fx_malformed_memarg_align_missing : list byte :=
  [x00; x61; x73; x6d; x01; x00; x00; x00; x01; x04; x01; x60; x00; x00; x03; x02; x01; x00; x0a; x04; x01; x02; x00; x28].
(** tests/fixtures/malformed/memarg_invalid_flags_bit.wasm *)
Definition fx_malformed_memarg_invalid_flags_bit : list byte :=
  [x00; x61; x73; x6d; x01; x00; x00; x00; x01; x04; x01; x60; x00; x00; x03; x02; x01; x00; x05; x03; x01; x00; x01; x0a; x0a; x01; x08; x00; x41; x00; x28; x80; x01; x00; x0b].
(** tests/fixtures/malformed/memory_section_invalid_limits_flag.wasm *)
Definition fx_malformed_memory_section_invalid_limits_flag : list byte :=
  [x00; x61; x73; x6d; x01; x00; x00; x00; x05; x02; x01; x02].
(** tests/fixtures/malformed/memory_section_missing_limits.wasm *)
Definition fx_malformed_memory_section_missing_limits : list byte :=
  [x00; x61; x73; x6d; x01; x00; x00; x00; x05; x01; x01].
(** tests/fixtures/malformed/memory_section_missing_max.wasm *)
Definition fx_malformed_memory_section_missing_max : list byte :=
  [x00; x61; x73; x6d; x01; x00; x00; x00; x05; x03; x01; x01; x01].
(** tests/fixtures/malformed/memory_section_missing_min.wasm *)
Definition fx_malformed_memory_section_missing_min : list byte :=
  [x00; x61; x73; x6d; x01; x00; x00; x00; x05; x02; x01; x00].
(** tests/fixtures/malformed/numeric_f64_const_truncated.wasm *)
Definition fx_malformed_numeric_f64_const_truncated : list byte :=
  [x00; x61; x73; x6d; x01; x00; x00; x00; x01; x04; x01; x60; x00; x00; x03; x02; x01; x00; x0a; x08; x01; x06; x00; x44; x00; x00; x00; x00].
(** tests/fixtures/malformed/numeric_fc_opcode_truncated.wasm *)
Definition fx_malformed_numeric_fc_opcode_truncated : list byte :=
  [x00; x61; x73; x6d; x01; x00; x00; x00; x01; x04; x01; x60; x00; x00; x03; x02; x01; x00; x0a; x04; x01; x02; x00; xfc].
(** tests/fixtures/malformed/preamble_truncated.wasm *)
Definition fx_malformed_preamble_truncated : list byte :=
  [x00; x61; x73; x6d].
(** tests/fixtures/malformed/preamble_unexpected.wasm *)
Definition fx_malformed_preamble_unexpected : list byte :=
  [x00; x61; x73; x6d; x02; x00; x00; x00].
(** tests/fixtures/malformed/ref_func_overlong.wasm *)
Definition fx_malformed_ref_func_overlong : list byte :=
  [x00; x61; x73; x6d; x01; x00; x00; x00; x01; x04; x01; x60; x00; x00; x03; x02; x01; x00; x0a; x0a; x01; x08; x00; xd2; x80; x80; x80; x80; x80; x0b].
(** tests/fixtures/malformed/ref_null_invalid_marker.wasm *)
Definition fx_malformed_ref_null_invalid_marker : list byte :=
  [x00; x61; x73; x6d; x01; x00; x00; x00; x01; x04; x01; x60; x00; x00; x03; x02; x01; x00; x0a; x06; x01; x04; x00; xd0; x7f; x0b].
(** tests/fixtures/malformed/ref_test_invalid_subopcode.wasm *)
Definition fx_malformed_ref_test_invalid_subopcode : list byte :=
  [x00; x61; x73; x6d; x01; x00; x00; x00; x01; x04; x01; x60; x00; x00; x03; x02; x01; x00; x0a; x06; x01; x04; x00; xfb; x1f; x0b].
(** tests/fixtures/malformed/ref_test_negative_heaptype.wasm *)
Definition fx_malformed_ref_test_negative_heaptype : list byte :=
  [x00; x61; x73; x6d; x01; x00; x00; x00; x01; x04; x01; x60; x00; x00; x03; x02; x01; x00; x0a; x07; x01; x05; x00; xfb; x14; x7f; x0b].
(** tests/fixtures/malformed/section_header_size_truncated.wasm *)
Definition fx_malformed_section_header_size_truncated : list byte :=
  [x00; x61; x73; x6d; x01; x00; x00; x00; x01].
(** tests/fixtures/malformed/section_out_of_order.wasm *)
Definition fx_malformed_section_out_of_order : list byte :=
  [x00; x61; x73; x6d; x01; x00; x00; x00; x05; x01; x00; x01; x01; x00].
(** tests/fixtures/malformed/section_size_representation_too_long.wasm *)
Definition fx_malformed_section_size_representation_too_long : list byte :=
  [x00; x61; x73; x6d; x01; x00; x00; x00; x01; x80; x80; x80; x80; x80].
(** tests/fixtures/malformed/select_invalid_valtype.wasm *)
Definition fx_malformed_select_invalid_valtype : list byte :=
  [x00; x61; x73; x6d; x01; x00; x00; x00; x01; x04; x01; x60; x00; x00; x03; x02; x01; x00; x0a; x07; x01; x05; x00; x1c; x01; xff; x0b].
(** tests/fixtures/malformed/select_type_vector_invalid_valtype.wasm *)
Definition fx_malformed_select_type_vector_invalid_valtype : list byte :=
  [x00; x61; x73; x6d; x01; x00; x00; x00; x01; x04; x01; x60; x00; x00; x03; x02; x01; x00; x0a; x07; x01; x05; x00; x1c; x01; xff; x0b].
(** tests/fixtures/malformed/start_section_funcidx_overlong.wasm *)
Definition fx_malformed_start_section_funcidx_overlong : list byte :=
  [x00; x61; x73; x6d; x01; x00; x00; x00; x08; x05; x80; x80; x80; x80; x10].
(** tests/fixtures/malformed/table_get_tableidx_overlong.wasm *)
Definition fx_malformed_table_get_tableidx_overlong : list byte :=
  [x00; x61; x73; x6d; x01; x00; x00; x00; x01; x04; x01; x60; x00; x00; x03; x02; x01; x00; x0a; x0a; x01; x08; x00; x25; x80; x80; x80; x80; x80; x0b].
(** tests/fixtures/malformed/table_section_invalid_reftype.wasm *)
Definition fx_malformed_table_section_invalid_reftype : list byte :=
  [x00; x61; x73; x6d; x01; x00; x00; x00; x04; x02; x01; x00].
(** tests/fixtures/malformed/table_section_limits_invalid_flag.wasm *)
Definition fx_malformed_table_section_limits_invalid_flag : list byte :=
  [x00; x61; x73; x6d; x01; x00; x00; x00; x04; x03; x01; x70; x02].
(** tests/fixtures/malformed/table_section_reftype_truncated.wasm *)
Definition fx_malformed_table_section_reftype_truncated : list byte :=
  [x00; x61; x73; x6d; x01; x00; x00; x00; x04; x01; x01].
(** tests/fixtures/malformed/tag_section_invalid_marker.wasm *)
Definition fx_malformed_tag_section_invalid_marker : list byte :=
  [x00; x61; x73; x6d; x01; x00; x00; x00; x01; x04; x01; x60; x00; x00; x0d; x03; x01; x01; x00].
(** tests/fixtures/malformed/try_table_invalid_catch_marker.wasm *)
Definition fx_malformed_try_table_invalid_catch_marker : list byte :=
  [x00; x61; x73; x6d; x01; x00; x00; x00; x01; x04; x01; x60; x00; x00; x03; x02; x01; x00; x0a; x09; x01; x07; x00; x1f; x40; x01; x04; x0b; x0b].
(** tests/fixtures/malformed/try_table_unexpected_else.wasm *)
Definition fx_malformed_try_table_unexpected_else : list byte :=
  [x00; x61; x73; x6d; x01; x00; x00; x00; x01; x04; x01; x60; x00; x00; x03; x02; x01; x00; x0a; x0b; x01; x09; x00; x1f; x40; x01; x02; x00; x05; x0b; x0b].
(** tests/fixtures/malformed/type_section_comptype_invalid_marker.wasm *)
Definition fx_malformed_type_section_comptype_invalid_marker : list byte :=
  [x00; x61; x73; x6d; x01; x00; x00; x00; x01; x02; x01; x00].
(** tests/fixtures/malformed/type_section_comptype_marker_missing.wasm *)
Definition fx_malformed_type_section_comptype_marker_missing : list byte :=
  [x00; x61; x73; x6d; x01; x00; x00; x00; x01; x01; x01].
(** tests/fixtures/malformed/type_section_length_too_large.wasm *)
Definition fx_malformed_type_section_length_too_large : list byte :=
  [x00; x61; x73; x6d; x01; x00; x00; x00; x01; x05; xff; xff; xff; xff; x10].
(** tests/fixtures/malformed/type_section_param_invalid_valtype.wasm *)
Definition fx_malformed_type_section_param_invalid_valtype : list byte :=
  [x00; x61; x73; x6d; x01; x00; x00; x00; x01; x05; x01; x60; x01; xff; x00].
(** tests/fixtures/malformed/type_section_result_valtype_truncated.wasm *)
Definition fx_malformed_type_section_result_valtype_truncated : list byte :=
  [x00; x61; x73; x6d; x01; x00; x00; x00; x01; x04; x01; x60; x00; x01].
(** tests/fixtures/malformed/type_section_size_mismatch.wasm *)
Definition fx_malformed_type_section_size_mismatch : list byte :=
  [x00; x61; x73; x6d; x01; x00; x00; x00; x01; x05; x00; x00; x00; x00; x00].
(** tests/fixtures/malformed/vector_immediates_truncated.wasm *)
Definition fx_malformed_vector_immediates_truncated : list byte :=
  [x00; x61; x73; x6d; x01; x00; x00; x00; x01; x04; x01; x60; x00; x00; x03; x02; x01; x00; x0a; x08; x01; x06; x00; xfd; x0c; x00; x00; x00].
(** tests/fixtures/malformed/vector_invalid_opcode.wasm *)
Definition fx_malformed_vector_invalid_opcode : list byte :=
  [x00; x61; x73; x6d; x01; x00; x00; x00; x01; x04; x01; x60; x00; x00; x03; x02; x01; x00; x0a; x08; x01; x06; x00; xfd; xff; xff; x03; x0b].
(** tests/fixtures/malformed/vector_laneidx_missing.wasm *)
Definition fx_malformed_vector_laneidx_missing : list byte :=
  [x00; x61; x73; x6d; x01; x00; x00; x00; x01; x04; x01; x60; x00; x00; x03; x02; x01; x00; x0a; x07; x01; x05; x00; xfd; x54; x00; x00].
(** tests/fixtures/malformed/vector_memarg_offset_truncated.wasm *)
Definition fx_malformed_vector_memarg_offset_truncated : list byte :=
  [x00; x61; x73; x6d; x01; x00; x00; x00; x01; x04; x01; x60; x00; x00; x03; x02; x01; x00; x0a; x06; x01; x04; x00; xfd; x00; x01].
(** tests/fixtures/malformed/vector_opcode_truncated.wasm *)
Definition fx_malformed_vector_opcode_truncated : list byte :=
  [x00; x61; x73; x6d; x01; x00; x00; x00; x01; x04; x01; x60; x00; x00; x03; x02; x01; x00; x0a; x04; x01; x02; x00; xfd].
(** tests/fixtures/mem_limits_bug.wasm *)
Definition fx_mem_limits_bug : list byte :=
  [x00; x61; x73; x6d; x01; x00; x00; x00; x05; x05; x01; x01; x01; x81; x01].
(** tests/fixtures/memory64_limits_large.wasm *)
Definition fx_memory64_limits_large : list byte :=
  [x00; x61; x73; x6d; x01; x00; x00; x00; x05; x0c; x01; x05; x80; x80; x80; x80; x10; x85; x80; x80; x80; x10].
(** tests/fixtures/memory64_limits_min.wasm *)
Definition fx_memory64_limits_min : list byte :=
  [x00; x61; x73; x6d; x01; x00; x00; x00; x05; x03; x01; x04; x01].
(** tests/fixtures/memory64_limits_min_max.wasm *)
Definition fx_memory64_limits_min_max : list byte :=
  [x00; x61; x73; x6d; x01; x00; x00; x00; x05; x04; x01; x05; x01; x02].
(** tests/fixtures/memory_instructions.wasm *)
Definition fx_memory_instructions : list byte :=
  [x00; x61; x73; x6d; x01; x00; x00; x00; x01; x04; x01; x60; x00; x00; x03; x02; x01; x00; x05; x03; x01; x00; x01; x07; x14; x02; x03; x6d; x65; x6d; x02; x00; x0a; x75; x73; x65; x2d; x6d; x65; x6d; x6f; x72; x79; x00; x00; x0c; x01; x02; x0a; xc9; x01; x01; xc6; x01; x02; x01; x7d; x01; x7c; x41; x00; x28; x02; x00; x1a; x41; x00; x29; x03; x00; x1a; x41; x00; x2a; x02; x00; x22; x00; x1a; x41; x00; x2b; x03; x00; x22; x01; x1a; x41; x00; x2c; x00; x00; x1a; x41; x00; x2d; x00; x00; x1a; x41; x00; x2e; x01; x00; x1a; x41; x00; x2f; x01; x00; x1a; x41; x00; x30; x00; x00; x1a; x41; x00; x31; x00; x00; x1a; x41; x00; x32; x01; x00; x1a; x41; x00; x33; x01; x00; x1a; x41; x00; x34; x02; x00; x1a; x41; x00; x35; x02; x00; x1a; x41; x04; x41; x01; x36; x02; x00; x41; x08; x42; x02; x37; x03; x00; x41; x10; x20; x00; x38; x02; x00; x41; x18; x20; x01; x39; x03; x00; x41; x20; x41; x05; x3a; x00; x00; x41; x22; x41; x06; x3b; x01; x00; x41; x24; x42; x07; x3c; x00; x00; x41; x26; x42; x08; x3d; x01; x00; x41; x28; x42; x09; x3e; x02; x00; x3f; x00; x1a; x41; x00; x40; x00; x1a; x41; x00; x41; x00; x41; x04; xfc; x08; x01; x00; xfc; x09; x01; x41; x08; x41; x00; x41; x04; xfc; x0a; x00; x00; x41; x0c; x41; xff; x01; x41; x04; xfc; x0b; x00; x0b; x0b; x2e; x02; x00; x41; x00; x0b; x20; x00; x01; x02; x03; x04; x05; x06; x07; x08; x09; x0a; x0b; x0c; x0d; x0e; x0f; x10; x11; x12; x13; x14; x15; x16; x17; x18; x19; x1a; x1b; x1c; x1d; x1e; x1f; x01; x06; xaa; xbb; xcc; xdd; xee; xff].
(** tests/fixtures/memory_instructions_memidx.wasm *)
Definition fx_memory_instructions_memidx : list byte :=
  [x00; x61; x73; x6d; x01; x00; x00; x00; x01; x04; x01; x60; x00; x00; x03; x02; x01; x00; x05; x05; x02; x00; x01; x00; x01; x0a; xb9; x01; x01; xb6; x01; x00; x41; x00; x28; x42; x01; x00; x1a; x41; x00; x29; x43; x01; x00; x1a; x41; x00; x2a; x42; x01; x00; x1a; x41; x00; x2b; x43; x01; x00; x1a; x41; x00; x2c; x40; x01; x00; x1a; x41; x00; x2d; x40; x01; x00; x1a; x41; x00; x2e; x41; x01; x00; x1a; x41; x00; x2f; x41; x01; x00; x1a; x41; x00; x30; x40; x01; x00; x1a; x41; x00; x31; x40; x01; x00; x1a; x41; x00; x32; x41; x01; x00; x1a; x41; x00; x33; x41; x01; x00; x1a; x41; x00; x34; x42; x01; x00; x1a; x41; x00; x35; x42; x01; x00; x1a; x41; x04; x41; x01; x36; x42; x01; x00; x41; x08; x42; x02; x37; x43; x01; x00; x41; x0c; x43; x00; x00; x80; x3f; x38; x42; x01; x00; x41; x10; x44; x00; x00; x00; x00; x00; x00; x00; x40; x39; x43; x01; x00; x41; x14; x41; x05; x3a; x40; x01; x00; x41; x16; x41; x06; x3b; x41; x01; x00; x41; x18; x42; x07; x3c; x40; x01; x00; x41; x1a; x42; x08; x3d; x41; x01; x00; x41; x1c; x42; x09; x3e; x42; x01; x00; x0b].
(** tests/fixtures/memory_instructions_multi_memidx.wasm *)
Definition fx_memory_instructions_multi_memidx : list byte :=
  [x00; x61; x73; x6d; x01; x00; x00; x00; x01; x04; x01; x60; x00; x00; x03; x02; x01; x00; x05; x05; x02; x00; x01; x00; x01; x0c; x01; x01; x0a; x30; x01; x2e; x00; x41; x00; x28; x42; x01; x00; x1a; x3f; x01; x1a; x41; x01; x40; x01; x1a; x41; x00; x41; x00; x41; x02; xfc; x08; x00; x01; x41; x00; x41; x00; x41; x02; xfc; x0a; x01; x00; x41; x00; x41; x07; x41; x02; xfc; x0b; x01; x0b; x0b; x05; x01; x01; x02; x68; x69].
(** tests/fixtures/multi_memory_kitchensink.wasm *)
Definition fx_multi_memory_kitchensink : list byte :=
  [x00; x61; x73; x6d; x01; x00; x00; x00; x01; x04; x01; x60; x00; x00; x03; x02; x01; x00; x05; x05; x02; x00; x01; x00; x01; x0c; x01; x03; x0a; x6e; x01; x6c; x00; x41; x00; x28; x02; x00; x1a; x41; x00; x28; x42; x01; x00; x1a; x41; x00; x42; x01; x37; x43; x01; x00; x41; x00; x28; x40; x00; x10; x1a; x3f; x00; x1a; x3f; x01; x1a; x41; x00; x40; x00; x1a; x41; x00; x40; x01; x1a; x41; x00; x41; x00; x41; x01; xfc; x08; x01; x00; xfc; x09; x01; x41; x00; x41; x00; x41; x01; xfc; x08; x01; x01; x41; x00; x41; x00; x41; x01; xfc; x0a; x00; x01; x41; x00; x41; x00; x41; x01; xfc; x0a; x01; x00; x41; x00; x41; xff; x01; x41; x01; xfc; x0b; x00; x41; x00; x41; x07; x41; x01; xfc; x0b; x01; x0b; x0b; x14; x03; x00; x41; x00; x0b; x01; x41; x01; x02; x42; x43; x02; x01; x41; x04; x0b; x03; x44; x45; x46].
(** tests/fixtures/no_export.wasm *)
Definition fx_no_export : list byte :=
  [x00; x61; x73; x6d; x01; x00; x00; x00; x01; x07; x01; x60; x02; x7f; x7f; x01; x7f; x03; x02; x01; x00; x0a; x09; x01; x07; x00; x20; x00; x20; x01; x6a; x0b].
(** tests/fixtures/numeric_instructions.wasm *)
Definition fx_numeric_instructions : list byte :=
  [x00; x61; x73; x6d; x01; x00; x00; x00; x01; x04; x01; x60; x00; x00; x03; x0b; x0a; x00; x00; x00; x00; x00; x00; x00; x00; x00; x00; x07; x0b; x01; x07; x75; x73; x65; x5f; x61; x6c; x6c; x00; x09; x0a; xc5; x09; x0a; x18; x00; x41; x01; x1a; x42; x01; x1a; x43; x00; x00; x80; x3f; x1a; x44; x00; x00; x00; x00; x00; x00; xf0; x3f; x1a; x0b; xc2; x02; x00; x41; x00; x45; x1a; x41; x01; x41; x01; x46; x1a; x41; x01; x41; x00; x47; x1a; x41; x7f; x41; x01; x48; x1a; x41; x01; x41; x02; x49; x1a; x41; x02; x41; x01; x4a; x1a; x41; x02; x41; x01; x4b; x1a; x41; x7f; x41; x7f; x4c; x1a; x41; x01; x41; x02; x4d; x1a; x41; x7f; x41; x7f; x4e; x1a; x41; x02; x41; x01; x4f; x1a; x42; x00; x50; x1a; x42; x01; x42; x01; x51; x1a; x42; x01; x42; x00; x52; x1a; x42; x7f; x42; x01; x53; x1a; x42; x01; x42; x02; x54; x1a; x42; x02; x42; x01; x55; x1a; x42; x02; x42; x01; x56; x1a; x42; x7f; x42; x7f; x57; x1a; x42; x01; x42; x02; x58; x1a; x42; x7f; x42; x7f; x59; x1a; x42; x02; x42; x01; x5a; x1a; x43; x00; x00; x80; x3f; x43; x00; x00; x80; x3f; x5b; x1a; x43; x00; x00; x80; x3f; x43; x00; x00; x00; x00; x5c; x1a; x43; x00; x00; x80; x3f; x43; x00; x00; x00; x40; x5d; x1a; x43; x00; x00; x00; x40; x43; x00; x00; x80; x3f; x5e; x1a; x43; x00; x00; x80; x3f; x43; x00; x00; x00; x40; x5f; x1a; x43; x00; x00; x00; x40; x43; x00; x00; x80; x3f; x60; x1a; x44; x00; x00; x00; x00; x00; x00; xf0; x3f; x44; x00; x00; x00; x00; x00; x00; xf0; x3f; x61; x1a; x44; x00; x00; x00; x00; x00; x00; xf0; x3f; x44; x00; x00; x00; x00; x00; x00; x00; x00; x62; x1a; x44; x00; x00; x00; x00; x00; x00; xf0; x3f; x44; x00; x00; x00; x00; x00; x00; x00; x40; x63; x1a; x44; x00; x00; x00; x00; x00; x00; x00; x40; x44; x00; x00; x00; x00; x00; x00; xf0; x3f; x64; x1a; x44; x00; x00; x00; x00; x00; x00; xf0; x3f; x44; x00; x00; x00; x00; x00; x00; x00; x40; x65; x1a; x44; x00; x00; x00; x00; x00; x00; x00; x40; x44; x00; x00; x00; x00; x00; x00; xf0; x3f; x66; x1a; x0b; x69; x00; x41; x08; x67; x1a; x41; x08; x68; x1a; x41; xff; x01; x69; x1a; x41; x01; x41; x02; x6a; x1a; x41; x03; x41; x01; x6b; x1a; x41; x03; x41; x04; x6c; x1a; x41; x07; x41; x02; x6d; x1a; x41; x07; x41; x02; x6e; x1a; x41; x07; x41; x03; x6f; x1a; x41; x07; x41; x03; x70; x1a; x41; x06; x41; x03; x71; x1a; x41; x01; x41; x02; x72; x1a; x41; x01; x41; x03; x73; x1a; x41; x01; x41; x02; x74; x1a; x41; x78; x41; x01; x75; x1a; x41; x08; x41; x01; x76; x1a; x41; x01; x41; x02; x77; x1a; x41; x01; x41; x02; x78; x1a; x0b; x69; x00; x42; x08; x79; x1a; x42; x08; x7a; x1a; x42; xff; x01; x7b; x1a; x42; x01; x42; x02; x7c; x1a; x42; x03; x42; x01; x7d; x1a; x42; x03; x42; x04; x7e; x1a; x42; x07; x42; x02; x7f; x1a; x42; x07; x42; x02; x80; x1a; x42; x07; x42; x03; x81; x1a; x42; x07; x42; x03; x82; x1a; x42; x06; x42; x03; x83; x1a; x42; x01; x42; x02; x84; x1a; x42; x01; x42; x03; x85; x1a; x42; x01; x42; x02; x86; x1a; x42; x78; x42; x01; x87; x1a; x42; x08; x42; x01; x88; x1a; x42; x01; x42; x02; x89; x1a; x42; x01; x42; x02; x8a; x1a; x0b; x87; x01; x00; x43; x00; x00; x80; xbf; x8b; x1a; x43; x00; x00; x80; x3f; x8c; x1a; x43; x9a; x99; x99; x3f; x8d; x1a; x43; x66; x66; xe6; x3f; x8e; x1a; x43; x9a; x99; xd9; x3f; x8f; x1a; x43; x66; x66; xa6; x3f; x90; x1a; x43; x00; x00; x80; x40; x91; x1a; x43; x00; x00; x80; x3f; x43; x00; x00; x00; x40; x92; x1a; x43; x00; x00; x40; x40; x43; x00; x00; x80; x3f; x93; x1a; x43; x00; x00; x00; x40; x43; x00; x00; x40; x40; x94; x1a; x43; x00; x00; xc0; x40; x43; x00; x00; x00; x40; x95; x1a; x43; x00; x00; x80; x3f; x43; x00; x00; x00; x40; x96; x1a; x43; x00; x00; x80; x3f; x43; x00; x00; x00; x40; x97; x1a; x43; x00; x00; x80; x3f; x43; x00; x00; x00; xc0; x98; x1a; x0b; xdb; x01; x00; x44; x00; x00; x00; x00; x00; x00; xf0; xbf; x99; x1a; x44; x00; x00; x00; x00; x00; x00; xf0; x3f; x9a; x1a; x44; x33; x33; x33; x33; x33; x33; xf3; x3f; x9b; x1a; x44; xcd; xcc; xcc; xcc; xcc; xcc; xfc; x3f; x9c; x1a; x44; x33; x33; x33; x33; x33; x33; xfb; x3f; x9d; x1a; x44; xcd; xcc; xcc; xcc; xcc; xcc; xf4; x3f; x9e; x1a; x44; x00; x00; x00; x00; x00; x00; x10; x40; x9f; x1a; x44; x00; x00; x00; x00; x00; x00; xf0; x3f; x44; x00; x00; x00; x00; x00; x00; x00; x40; xa0; x1a; x44; x00; x00; x00; x00; x00; x00; x08; x40; x44; x00; x00; x00; x00; x00; x00; xf0; x3f; xa1; x1a; x44; x00; x00; x00; x00; x00; x00; x00; x40; x44; x00; x00; x00; x00; x00; x00; x08; x40; xa2; x1a; x44; x00; x00; x00; x00; x00; x00; x18; x40; x44; x00; x00; x00; x00; x00; x00; x00; x40; xa3; x1a; x44; x00; x00; x00; x00; x00; x00; xf0; x3f; x44; x00; x00; x00; x00; x00; x00; x00; x40; xa4; x1a; x44; x00; x00; x00; x00; x00; x00; xf0; x3f; x44; x00; x00; x00; x00; x00; x00; x00; x40; xa5; x1a; x44; x00; x00; x00; x00; x00; x00; xf0; x3f; x44; x00; x00; x00; x00; x00; x00; x00; xc0; xa6; x1a; x0b; x88; x01; x00; x42; x2a; xa7; x1a; x43; x00; x00; x60; x40; xa8; x1a; x43; x00; x00; x60; x40; xa9; x1a; x44; x00; x00; x00; x00; x00; x00; x0c; xc0; xaa; x1a; x44; x00; x00; x00; x00; x00; x00; x0c; x40; xab; x1a; x41; x7f; xac; x1a; x41; x01; xad; x1a; x43; x00; x00; x60; xc0; xae; x1a; x43; x00; x00; x60; x40; xaf; x1a; x44; x00; x00; x00; x00; x00; x00; x0c; xc0; xb0; x1a; x44; x00; x00; x00; x00; x00; x00; x0c; x40; xb1; x1a; x41; x7f; xb2; x1a; x41; x01; xb3; x1a; x42; x7f; xb4; x1a; x42; x01; xb5; x1a; x44; x00; x00; x00; x00; x00; x00; x12; x40; xb6; x1a; x41; x7f; xb7; x1a; x41; x01; xb8; x1a; x42; x7f; xb9; x1a; x42; x01; xba; x1a; x43; x00; x00; x20; x40; xbb; x1a; x0b; x3a; x00; x43; x00; x00; x80; x3f; xbc; x1a; x44; x00; x00; x00; x00; x00; x00; xf0; x3f; xbd; x1a; x41; x01; xbe; x1a; x42; x01; xbf; x1a; x41; x80; x01; xc0; x1a; x41; x80; x80; x02; xc1; x1a; x42; x80; x01; xc2; x1a; x42; x80; x80; x02; xc3; x1a; x42; x80; x80; x80; x80; x08; xc4; x1a; x0b; x52; x00; x43; x00; x00; x60; xc0; xfc; x00; x1a; x43; x00; x00; x60; x40; xfc; x01; x1a; x44; x00; x00; x00; x00; x00; x00; x0c; xc0; xfc; x02; x1a; x44; x00; x00; x00; x00; x00; x00; x0c; x40; xfc; x03; x1a; x43; x00; x00; x60; xc0; xfc; x04; x1a; x43; x00; x00; x60; x40; xfc; x05; x1a; x44; x00; x00; x00; x00; x00; x00; x0c; xc0; xfc; x06; x1a; x44; x00; x00; x00; x00; x00; x00; x0c; x40; xfc; x07; x1a; x0b; x14; x00; x10; x00; x10; x01; x10; x02; x10; x03; x10; x04; x10; x05; x10; x06; x10; x07; x10; x08; x0b].
(** tests/fixtures/overlong_blocktype_s33.wasm *)
Definition fx_overlong_blocktype_s33 : list byte :=
  [x00; x61; x73; x6d; x01; x00; x00; x00; x01; x04; x01; x60; x00; x00; x03; x02; x01; x00; x0a; x0c; x01; x0a; x00; x02; x80; x80; x80; x80; x80; x00; x0b; x0b].
(** tests/fixtures/parametric_instructions.wasm *)
Definition fx_parametric_instructions : list byte :=
  [x00; x61; x73; x6d; x01; x00; x00; x00; x01; x08; x01; x60; x03; x7f; x7f; x7f; x01; x7f; x03; x02; x01; x00; x07; x09; x01; x05; x70; x61; x72; x61; x6d; x00; x00; x0a; x18; x01; x16; x00; x20; x00; x20; x01; x20; x02; x1b; x1a; x20; x00; x20; x01; x20; x02; x1c; x01; x7f; x1a; x20; x00; x0b].
(** tests/fixtures/ref_null_exn.wasm *)
Definition fx_ref_null_exn : list byte :=
  [x00; x61; x73; x6d; x01; x00; x00; x00; x01; x05; x01; x60; x00; x01; x69; x03; x02; x01; x00; x0a; x06; x01; x04; x00; xd0; x69; x0b].
(** tests/fixtures/ref_test_cast.wasm *)
Definition fx_ref_test_cast : list byte :=
  [x00; x61; x73; x6d; x01; x00; x00; x00; x01; x04; x01; x60; x00; x00; x03; x02; x01; x00; x0a; x1c; x01; x1a; x00; xd0; x70; xfb; x14; x70; x1a; xd0; x70; xfb; x15; x70; x1a; xd0; x70; xfb; x16; x70; x1a; xd0; x70; xfb; x17; x70; x1a; x0b].
(** tests/fixtures/reference_instructions.wasm *)
Definition fx_reference_instructions : list byte :=
  [x00; x61; x73; x6d; x01; x00; x00; x00; x01; x04; x01; x60; x00; x00; x03; x03; x02; x00; x00; x04; x04; x01; x70; x00; x01; x07; x08; x01; x04; x72; x65; x66; x73; x00; x01; x09; x05; x01; x03; x00; x01; x00; x0a; x30; x02; x02; x00; x0b; x2b; x00; xd0; x70; xd1; x1a; xd2; x00; x1a; xd0; x70; xd4; x1a; xd0; x6d; xd0; x6d; xd3; x1a; xd2; x00; xfb; x14; x70; x1a; xd0; x70; xfb; x15; x70; x1a; xd2; x00; xfb; x16; x70; x1a; xd0; x70; xfb; x17; x70; x1a; x0b].
(** tests/fixtures/reftype_heaptype_control_v3.wasm *)
Definition fx_reftype_heaptype_control_v3 : list byte :=
  [x00; x61; x73; x6d; x01; x00; x00; x00; x01; x08; x02; x60; x00; x00; x60; x01; x6e; x00; x03; x06; x05; x00; x00; x00; x01; x01; x09; x05; x01; x03; x00; x01; x00; x0a; x42; x05; x02; x00; x0b; x14; x00; xd0; x74; x1a; xd0; x00; x1a; xd0; x00; xfb; x14; x00; x1a; xd0; x00; xfb; x16; x00; x1a; x0b; x0a; x00; xd2; x00; x14; x00; xd2; x00; x15; x00; x0b; x0e; x00; x02; x6e; x20; x00; xfb; x18; x03; x00; x6e; x6d; x0b; x1a; x0b; x0e; x00; x02; x6e; x20; x00; xfb; x19; x03; x00; x6e; x6d; x0b; x1a; x0b].
(** tests/fixtures/relaxed_simd_instructions.wasm *)
Definition fx_relaxed_simd_instructions : list byte :=
  [x00; x61; x73; x6d; x01; x00; x00; x00; x01; x04; x01; x60; x00; x00; x03; x02; x01; x00; x0a; xed; x01; x01; xea; x01; x01; x03; x7b; xfd; x0c; x00; x01; x02; x03; x04; x05; x06; x07; x08; x09; x0a; x0b; x0c; x0d; x0e; x0f; x21; x00; xfd; x0c; x10; x11; x12; x13; x14; x15; x16; x17; x18; x19; x1a; x1b; x1c; x1d; x1e; x1f; x21; x01; xfd; x0c; x20; x21; x22; x23; x24; x25; x26; x27; x28; x29; x2a; x2b; x2c; x2d; x2e; x2f; x21; x02; x20; x00; x20; x01; xfd; x80; x02; x1a; x20; x00; x20; x01; x20; x02; xfd; x89; x02; x1a; x20; x00; x20; x01; x20; x02; xfd; x8a; x02; x1a; x20; x00; x20; x01; x20; x02; xfd; x8b; x02; x1a; x20; x00; x20; x01; x20; x02; xfd; x8c; x02; x1a; x20; x00; x20; x01; xfd; x91; x02; x1a; x20; x00; x20; x01; xfd; x92; x02; x1a; x20; x00; x20; x01; x20; x02; xfd; x93; x02; x1a; x20; x00; x20; x01; xfd; x8d; x02; x1a; x20; x00; x20; x01; xfd; x8e; x02; x1a; x20; x00; x20; x01; x20; x02; xfd; x85; x02; x1a; x20; x00; x20; x01; x20; x02; xfd; x86; x02; x1a; x20; x00; x20; x01; xfd; x8f; x02; x1a; x20; x00; x20; x01; xfd; x90; x02; x1a; x20; x00; x20; x01; x20; x02; xfd; x87; x02; x1a; x20; x00; x20; x01; x20; x02; xfd; x88; x02; x1a; x20; x00; xfd; x81; x02; x1a; x20; x00; xfd; x82; x02; x1a; x20; x00; xfd; x83; x02; x1a; x20; x00; xfd; x84; x02; x1a; x0b].
(** tests/fixtures/return_call_instructions.wasm *)
Definition fx_return_call_instructions : list byte :=
  [x00; x61; x73; x6d; x01; x00; x00; x00; x01; x07; x02; x60; x00; x00; x60; x00; x00; x03; x04; x03; x00; x00; x00; x04; x04; x01; x70; x00; x01; x0a; x12; x03; x03; x00; x01; x0b; x04; x00; x12; x00; x0b; x07; x00; x41; x00; x13; x01; x00; x0b].
(** tests/fixtures/start_section.wasm *)
Definition fx_start_section : list byte :=
  [x00; x61; x73; x6d; x01; x00; x00; x00; x01; x04; x01; x60; x00; x00; x03; x02; x01; x00; x08; x01; x00; x0a; x04; x01; x02; x00; x0b].
(** tests/fixtures/table_entry_init_expr.wasm *)
Definition fx_table_entry_init_expr : list byte :=
  [x00; x61; x73; x6d; x01; x00; x00; x00; x01; x04; x01; x60; x00; x00; x03; x02; x01; x00; x04; x09; x01; x40; x00; x70; x00; x01; xd2; x00; x0b; x0a; x04; x01; x02; x00; x0b].
(** tests/fixtures/table_instructions.wasm *)
Definition fx_table_instructions : list byte :=
  [x00; x61; x73; x6d; x01; x00; x00; x00; x01; x09; x02; x60; x00; x00; x60; x02; x7f; x7f; x00; x03; x03; x02; x00; x01; x04; x07; x02; x70; x00; x04; x70; x00; x04; x07; x0d; x01; x09; x74; x61; x62; x6c; x65; x5f; x6f; x70; x73; x00; x01; x09; x09; x02; x01; x00; x01; x00; x01; x00; x01; x00; x0a; x42; x02; x02; x00; x0b; x3d; x00; x20; x00; x25; x00; x1a; x20; x00; xd0; x70; x26; x00; x41; x00; x41; x00; x41; x01; xfc; x0c; x01; x00; xfc; x0d; x01; x41; x00; xd0; x70; x41; x01; xfc; x11; x00; xfc; x10; x00; x1a; xd0; x70; x20; x01; xfc; x0f; x00; x1a; x41; x00; x41; x00; x41; x01; xfc; x0e; x00; x01; xfc; x10; x00; x1a; x0b].
(** tests/fixtures/tag_export.wasm *)
Definition fx_tag_export : list byte :=
  [x00; x61; x73; x6d; x01; x00; x00; x00; x01; x04; x01; x60; x00; x00; x0d; x03; x01; x00; x00; x07; x08; x01; x04; x74; x61; x67; x30; x04; x00].
(** tests/fixtures/tag_section.wasm *)
Definition fx_tag_section : list byte :=
  [x00; x61; x73; x6d; x01; x00; x00; x00; x01; x04; x01; x60; x00; x00; x0d; x03; x01; x00; x00].
(** tests/fixtures/tag_section_multi.wasm *)
Definition fx_tag_section_multi : list byte :=
  [x00; x61; x73; x6d; x01; x00; x00; x00; x01; x09; x02; x60; x00; x00; x60; x02; x7f; x7e; x00; x0d; x05; x02; x00; x00; x00; x01].
(** tests/fixtures/two_funcs_add2.wasm *)
Definition fx_two_funcs_add2 : list byte :=
  [x00; x61; x73; x6d; x01; x00; x00; x00; x01; x07; x01; x60; x02; x7f; x7f; x01; x7f; x03; x03; x02; x00; x00; x07; x08; x01; x04; x61; x64; x64; x32; x00; x01; x0a; x11; x02; x07; x00; x20; x00; x20; x01; x6a; x0b; x07; x00; x20; x00; x20; x01; x6a; x0b].
(** tests/fixtures/type_section_recgroup.wasm *)
Definition fx_type_section_recgroup : list byte :=
  [x00; x61; x73; x6d; x01; x00; x00; x00; x01; x15; x02; x4e; x02; x4f; x00; x5f; x02; x7f; x00; x78; x01; x50; x01; x00; x5e; x77; x00; x60; x01; x7f; x00].
(** tests/fixtures/variable_instructions.wasm *)
Definition fx_variable_instructions : list byte :=
  [x00; x61; x73; x6d; x01; x00; x00; x00; x01; x06; x01; x60; x02; x7f; x7f; x00; x03; x02; x01; x00; x06; x06; x01; x7f; x01; x41; x00; x0b; x07; x07; x01; x03; x76; x61; x72; x00; x00; x0a; x14; x01; x12; x00; x20; x00; x21; x01; x20; x01; x22; x00; x1a; x23; x00; x1a; x20; x01; x24; x00; x0b].
(** tests/fixtures/vector_instructions.wasm *)
Definition fx_vector_instructions : list byte :=
  [x00; x61; x73; x6d; x01; x00; x00; x00; x01; x04; x01; x60; x00; x00; x03; x02; x01; x00; x05; x03; x01; x00; x01; x07; x0f; x01; x0b; x75; x73; x65; x5f; x76; x65; x63; x74; x6f; x72; x73; x00; x00; x0a; xcc; x01; x01; xc9; x01; x00; x41; x00; xfd; x00; x04; x00; x41; x10; xfd; x00; x04; x00; xfd; x6e; xfd; x0c; x00; x01; x02; x03; x04; x05; x06; x07; x08; x09; x0a; x0b; x0c; x0d; x0e; x0f; xfd; x0c; x10; x11; x12; x13; x14; x15; x16; x17; x18; x19; x1a; x1b; x1c; x1d; x1e; x1f; xfd; x52; x1a; xfd; x0c; x20; x21; x22; x23; x24; x25; x26; x27; x28; x29; x2a; x2b; x2c; x2d; x2e; x2f; xfd; x15; x00; x1a; xfd; x0c; x30; x31; x32; x33; x34; x35; x36; x37; x38; x39; x3a; x3b; x3c; x3d; x3e; x3f; x41; x07; xfd; x17; x05; x1a; xfd; x0c; x40; x41; x42; x43; x44; x45; x46; x47; x48; x49; x4a; x4b; x4c; x4d; x4e; x4f; xfd; x0c; x50; x51; x52; x53; x54; x55; x56; x57; x58; x59; x5a; x5b; x5c; x5d; x5e; x5f; xfd; x0d; x00; x10; x01; x11; x02; x12; x03; x13; x04; x14; x05; x15; x06; x16; x07; x17; x1a; xfd; x0c; x60; x61; x62; x63; x64; x65; x66; x67; x68; x69; x6a; x6b; x6c; x6d; x6e; x6f; xfd; x53; x1a; x41; x00; xfd; x0c; x70; x71; x72; x73; x74; x75; x76; x77; x78; x79; x7a; x7b; x7c; x7d; x7e; x7f; xfd; x0b; x04; x00; x0b; x0b; x46; x01; x00; x41; x00; x0b; x40; x00; x01; x02; x03; x04; x05; x06; x07; x08; x09; x0a; x0b; x0c; x0d; x0e; x0f; x10; x11; x12; x13; x14; x15; x16; x17; x18; x19; x1a; x1b; x1c; x1d; x1e; x1f; x20; x21; x22; x23; x24; x25; x26; x27; x28; x29; x2a; x2b; x2c; x2d; x2e; x2f; x30; x31; x32; x33; x34; x35; x36; x37; x38; x39; x3a; x3b; x3c; x3d; x3e; x3f].
(** tests/fixtures/vector_memory_instructions_memidx.wasm *)
Definition fx_vector_memory_instructions_memidx : list byte :=
  [x00; x61; x73; x6d; x01; x00; x00; x00; x01; x04; x01; x60; x00; x00; x03; x02; x01; x00; x05; x05; x02; x00; x01; x00; x01; x0a; xda; x02; x01; xd7; x02; x00; x41; x00; xfd; x00; x44; x01; x00; x1a; x41; x00; xfd; x01; x43; x01; x00; x1a; x41; x00; xfd; x02; x43; x01; x00; x1a; x41; x00; xfd; x03; x43; x01; x00; x1a; x41; x00; xfd; x04; x43; x01; x00; x1a; x41; x00; xfd; x05; x43; x01; x00; x1a; x41; x00; xfd; x06; x43; x01; x00; x1a; x41; x00; xfd; x07; x40; x01; x00; x1a; x41; x00; xfd; x08; x41; x01; x00; x1a; x41; x00; xfd; x09; x42; x01; x00; x1a; x41; x00; xfd; x0a; x43; x01; x00; x1a; x41; x00; xfd; x5c; x42; x01; x00; x1a; x41; x00; xfd; x5d; x43; x01; x00; x1a; x41; x00; xfd; x0c; x00; x00; x00; x00; x00; x00; x00; x00; x00; x00; x00; x00; x00; x00; x00; x00; xfd; x0b; x44; x01; x00; x41; x00; xfd; x0c; x00; x00; x00; x00; x00; x00; x00; x00; x00; x00; x00; x00; x00; x00; x00; x00; xfd; x54; x40; x01; x00; x00; x1a; x41; x00; xfd; x0c; x00; x00; x00; x00; x00; x00; x00; x00; x00; x00; x00; x00; x00; x00; x00; x00; xfd; x55; x41; x01; x00; x00; x1a; x41; x00; xfd; x0c; x00; x00; x00; x00; x00; x00; x00; x00; x00; x00; x00; x00; x00; x00; x00; x00; xfd; x56; x42; x01; x00; x00; x1a; x41; x00; xfd; x0c; x00; x00; x00; x00; x00; x00; x00; x00; x00; x00; x00; x00; x00; x00; x00; x00; xfd; x57; x43; x01; x00; x00; x1a; x41; x00; xfd; x0c; x00; x00; x00; x00; x00; x00; x00; x00; x00; x00; x00; x00; x00; x00; x00; x00; xfd; x58; x40; x01; x00; x00; x41; x00; xfd; x0c; x00; x00; x00; x00; x00; x00; x00; x00; x00; x00; x00; x00; x00; x00; x00; x00; xfd; x59; x41; x01; x00; x00; x41; x00; xfd; x0c; x00; x00; x00; x00; x00; x00; x00; x00; x00; x00; x00; x00; x00; x00; x00; x00; xfd; x5a; x42; x01; x00; x00; x41; x00; xfd; x0c; x00; x00; x00; x00; x00; x00; x00; x00; x00; x00; x00; x00; x00; x00; x00; x00; xfd; x5b; x43; x01; x00; x00; x0b].
(** tests/fixtures/with_locals_exported.wasm *)
Definition fx_with_locals_exported : list byte :=
  [x00; x61; x73; x6d; x01; x00; x00; x00; x01; x07; x01; x60; x02; x7f; x7f; x01; x7f; x03; x02; x01; x00; x07; x0e; x01; x0a; x61; x64; x64; x5f; x6c; x6f; x63; x61; x6c; x73; x00; x00; x0a; x0b; x01; x09; x01; x02; x7f; x20; x00; x20; x01; x6a; x0b].

(** ** tests/tests.rs: expected modules *)
(** tests/tests.rs:96 *)
Example it_accepts_empty_module :
  decoded fx_empty = Ok (module_in fx_empty) /\
  (module_in fx_empty) = default_module.
Proof. vm_compute. repeat split; reflexivity. Qed.
(** tests/tests.rs:104 *)
Example it_accepts_add_sample :
  decoded fx_add = Ok (module_in fx_add) /\
  (module_in fx_add) = (mkModule VERSION [SK_Type; SK_Function; SK_Export; SK_Code] [(mkHeader SK_Type 7%N); (mkHeader SK_Function 2%N); (mkHeader SK_Export 7%N); (mkHeader SK_Code 9%N)] [] (map (fun ct => [mkSubType true [] ct]) [(CT_Func [(VT_Num Int32); (VT_Num Int32)] [(VT_Num Int32)])]) [(mkFunc 0%N [] [(I_LocalGet 0%N); (I_LocalGet 1%N); I_I32Add])] [] [] [] [] None [] None [] [(mkExport [x61; x64; x64] (EI_Func 0%N))] []).
Proof. vm_compute. repeat split; reflexivity. Qed.
(** tests/tests.rs:168 *)
Example it_decodes_type_section_recgroup :
  decoded fx_type_section_recgroup = Ok (module_in fx_type_section_recgroup) /\
  (types (module_in fx_type_section_recgroup)) = [[(mkSubType true [] (CT_Struct [(mkFieldType Const (ST_Val (VT_Num Int32))); (mkFieldType Var (ST_Pack PT_I8))])); (mkSubType false [0%N] (CT_Array (mkFieldType Const (ST_Pack PT_I16))))]; [(mkSubType true [] (CT_Func [(VT_Num Int32)] []))]].
Proof. vm_compute. repeat split; reflexivity. Qed.
(** tests/tests.rs:208 *)
Example it_decodes_tag_section :
  decoded fx_tag_section = Ok (module_in fx_tag_section) /\
  (module_in fx_tag_section) = (mkModule VERSION [SK_Type; SK_Tag] [(mkHeader SK_Type 4%N); (mkHeader SK_Tag 3%N)] [] (map (fun ct => [mkSubType true [] ct]) [(CT_Func [] [])]) [] [] [] [] [] None [] None [] [] [(mkTagType 0%N)]).
Proof. vm_compute. repeat split; reflexivity. Qed.
(** tests/tests.rs:244 *)
Example it_decodes_tag_section_multiple_entries :
  decoded fx_tag_section_multi = Ok (module_in fx_tag_section_multi) /\
  (module_in fx_tag_section_multi) = (mkModule VERSION [SK_Type; SK_Tag] [(mkHeader SK_Type 9%N); (mkHeader SK_Tag 5%N)] [] (map (fun ct => [mkSubType true [] ct]) [(CT_Func [] []); (CT_Func [(VT_Num Int32); (VT_Num Int64)] [])]) [] [] [] [] [] None [] None [] [] [(mkTagType 0%N); (mkTagType 1%N)]).
Proof. vm_compute. repeat split; reflexivity. Qed.
(** tests/tests.rs:286 *)
Example it_decodes_tag_export :
  decoded fx_tag_export = Ok (module_in fx_tag_export) /\
  (parsed_section_kinds (module_in fx_tag_export)) = [SK_Type; SK_Tag; SK_Export] /\
  (types (module_in fx_tag_export)) = (map (fun ct => [mkSubType true [] ct]) [(CT_Func [] [])]) /\
  (tags (module_in fx_tag_export)) = [(mkTagType 0%N)] /\
  (exports (module_in fx_tag_export)) = [(mkExport [x74; x61; x67; x30] (EI_Tag 0%N))].
Proof. vm_compute. repeat split; reflexivity. Qed.
(** tests/tests.rs:312 *)
Example it_accepts_two_funcs_exporting_second :
  decoded fx_two_funcs_add2 = Ok (module_in fx_two_funcs_add2) /\
  (module_in fx_two_funcs_add2) = (mkModule VERSION [SK_Type; SK_Function; SK_Export; SK_Code] [(mkHeader SK_Type 7%N); (mkHeader SK_Function 3%N); (mkHeader SK_Export 8%N); (mkHeader SK_Code 17%N)] [] (map (fun ct => [mkSubType true [] ct]) [(CT_Func [(VT_Num Int32); (VT_Num Int32)] [(VT_Num Int32)])]) [(mkFunc 0%N [] [(I_LocalGet 0%N); (I_LocalGet 1%N); I_I32Add]); (mkFunc 0%N [] [(I_LocalGet 0%N); (I_LocalGet 1%N); I_I32Add])] [] [] [] [] None [] None [] [(mkExport [x61; x64; x64; x32] (EI_Func 1%N))] []).
Proof. vm_compute. repeat split; reflexivity. Qed.
(** tests/tests.rs:385 *)
Example it_accepts_imports_of_tables_memories_and_globals :
  decoded fx_imports_table_mem_global = Ok (module_in fx_imports_table_mem_global) /\
  (module_in fx_imports_table_mem_global) = (mkModule VERSION [SK_Import] [(mkHeader SK_Import 63%N)] [] [] [] [] [] [] [] None [] None [(mkImport [x65; x6e; x76] [x74; x61; x62; x6c; x65] (ET_Table (mkTableType (mkRefType true (Ht AH_Func)) (mkLimits AT_I32 1%N None)))); (mkImport [x65; x6e; x76] [x6d; x65; x6d; x6f; x72; x79] (ET_Mem (mkMemType (mkLimits AT_I32 1%N None)))); (mkImport [x65; x6e; x76] [x67; x6c; x6f; x62; x61; x6c; x5f; x69] (ET_Global (mkGlobalType Const (VT_Num Int32)))); (mkImport [x65; x6e; x76] [x67; x6c; x6f; x62; x61; x6c; x5f; x6d; x75; x74] (ET_Global (mkGlobalType Var (VT_Num Int64))))] [] []).
Proof. vm_compute. repeat split; reflexivity. Qed.
(** tests/tests.rs:442 *)
Example it_decodes_imports_with_tag_and_func :
  decoded fx_imports_with_tag_func = Ok (module_in fx_imports_with_tag_func) /\
  (types (module_in fx_imports_with_tag_func)) = (map (fun ct => [mkSubType true [] ct]) [(CT_Func [(VT_Num Int32)] [(VT_Num Int32)]); (CT_Func [(VT_Num Int32)] [])]) /\
  (imports (module_in fx_imports_with_tag_func)) = [(mkImport [x65; x6e; x76] [x66; x75; x6e; x63; x30] (ET_Func 0%N)); (mkImport [x65; x6e; x76] [x74; x61; x67; x30] (ET_Tag (mkTagType 1%N)))].
Proof. vm_compute. repeat split; reflexivity. Qed.
(** tests/tests.rs:475 *)
Example it_accepts_module_without_exports :
  decoded fx_no_export = Ok (module_in fx_no_export) /\
  (module_in fx_no_export) = (mkModule VERSION [SK_Type; SK_Function; SK_Code] [(mkHeader SK_Type 7%N); (mkHeader SK_Function 2%N); (mkHeader SK_Code 9%N)] [] (map (fun ct => [mkSubType true [] ct]) [(CT_Func [(VT_Num Int32); (VT_Num Int32)] [(VT_Num Int32)])]) [(mkFunc 0%N [] [(I_LocalGet 0%N); (I_LocalGet 1%N); I_I32Add])] [] [] [] [] None [] None [] [] []).
Proof. vm_compute. repeat split; reflexivity. Qed.
(** tests/tests.rs:524 *)
Example it_decodes_start_section :
  decoded fx_start_section = Ok (module_in fx_start_section) /\
  (module_in fx_start_section) = (mkModule VERSION [SK_Type; SK_Function; SK_Start; SK_Code] [(mkHeader SK_Type 4%N); (mkHeader SK_Function 2%N); (mkHeader SK_Start 1%N); (mkHeader SK_Code 4%N)] [] (map (fun ct => [mkSubType true [] ct]) [(CT_Func [] [])]) [(mkFunc 0%N [] [])] [] [] [] [] None [] (Some 0%N) [] [] []).
Proof. vm_compute. repeat split; reflexivity. Qed.
(** tests/tests.rs:577 *)
Example it_decodes_control_instructions :
  decoded fx_control_instructions = Ok (module_in fx_control_instructions) /\
  (module_in fx_control_instructions) = (mkModule VERSION [SK_Type; SK_Import; SK_Function; SK_Table; SK_Export; SK_Code] [(mkHeader SK_Type 9%N); (mkHeader SK_Import 25%N); (mkHeader SK_Function 3%N); (mkHeader SK_Table 4%N); (mkHeader SK_Export 11%N); (mkHeader SK_Code 82%N)] [] (map (fun ct => [mkSubType true [] ct]) [(CT_Func [] []); (CT_Func [] [(VT_Num Int32); (VT_Num Int32)])]) [(mkFunc 0%N [] []); (mkFunc 0%N [] [I_Nop; (I_Block BT_Empty [I_Unreachable]); (I_Block BT_Empty [(I_Loop BT_Empty [(I_Br 1%N)])]); (I_Block BT_Empty [(I_I32Const (0)%Z); (I_BrIf 0%N)]); (I_Block BT_Empty [(I_I32Const (0)%Z); (I_BrTable [0%N] 0%N)]); (I_Block BT_Empty [(I_I32Const (0)%Z); (I_If BT_Empty [I_Unreachable] (Some [I_Nop]))]); (I_Block (BT_I 1%N) [(I_I32Const (42)%Z); (I_I32Const (7)%Z)]); I_Drop; I_Drop; (I_Call 0%N); (I_I32Const (0)%Z); (I_CallIndirect 0%N 0%N); (I_Throw 1%N); I_ThrowRef; (I_TryTable BT_Empty [(C_Catch 1%N 1%N); (C_CatchRef 1%N 1%N); (C_CatchAll 1%N); (C_CatchAllRef 1%N)] [I_Unreachable]); I_Return])] [(mkTable (mkTableType (mkRefType true (Ht AH_Func)) (mkLimits AT_I32 1%N None)) [(I_RefNull (Ht AH_Func))])] [] [] [] None [] None [(mkImport [x65; x6e; x76] [x74; x61; x67; x30] (ET_Tag (mkTagType 0%N))); (mkImport [x65; x6e; x76] [x74; x61; x67; x31] (ET_Tag (mkTagType 0%N)))] [(mkExport [x63; x6f; x6e; x74; x72; x6f; x6c] (EI_Func 1%N))] []).
Proof. vm_compute. repeat split; reflexivity. Qed.
(** tests/tests.rs:740 *)
Example it_decodes_return_call_instructions :
  decoded fx_return_call_instructions = Ok (module_in fx_return_call_instructions) /\
  (types (module_in fx_return_call_instructions)) = (map (fun ct => [mkSubType true [] ct]) [(CT_Func [] []); (CT_Func [] [])]) /\
  (tables (module_in fx_return_call_instructions)) = [(mkTable (mkTableType (mkRefType true (Ht AH_Func)) (mkLimits AT_I32 1%N None)) [(I_RefNull (Ht AH_Func))])] /\
  (funcs (module_in fx_return_call_instructions)) = [(mkFunc 0%N [] [I_Nop]); (mkFunc 0%N [] [(I_ReturnCall 0%N)]); (mkFunc 0%N [] [(I_I32Const (0)%Z); (I_ReturnCallIndirect 0%N 1%N)])].
Proof. vm_compute. repeat split; reflexivity. Qed.
(** tests/tests.rs:793 *)
Example it_decodes_element_section_all_alts :
  decoded fx_element_section_all_alts = Ok (module_in fx_element_section_all_alts) /\
  (module_in fx_element_section_all_alts) = (mkModule VERSION [SK_Type; SK_Function; SK_Table; SK_Element; SK_Code] [(mkHeader SK_Type 4%N); (mkHeader SK_Function 7%N); (mkHeader SK_Table 7%N); (mkHeader SK_Element 67%N); (mkHeader SK_Code 19%N)] [] (map (fun ct => [mkSubType true [] ct]) [(CT_Func [] [])]) [(mkFunc 0%N [] []); (mkFunc 0%N [] []); (mkFunc 0%N [] []); (mkFunc 0%N [] []); (mkFunc 0%N [] []); (mkFunc 0%N [] [])] [(mkTable (mkTableType (mkRefType true (Ht AH_Func)) (mkLimits AT_I32 12%N None)) [(I_RefNull (Ht AH_Func))]); (mkTable (mkTableType (mkRefType true (Ht AH_Func)) (mkLimits AT_I32 12%N None)) [(I_RefNull (Ht AH_Func))])] [] [] [(mkElem (mkRefType false (Ht AH_Func)) [[(I_RefFunc 0%N)]; [(I_RefFunc 1%N)]] (EM_Active 0%N [(I_I32Const (0)%Z)])); (mkElem (mkRefType true (Ht AH_Func)) [[(I_RefFunc 2%N)]; [(I_RefFunc 3%N)]] EM_Passive); (mkElem (mkRefType true (Ht AH_Func)) [[(I_RefFunc 4%N)]] (EM_Active 1%N [(I_I32Const (1)%Z)])); (mkElem (mkRefType true (Ht AH_Func)) [[(I_RefFunc 5%N)]] EM_Declare); (mkElem (mkRefType true (Ht AH_Func)) [[(I_RefFunc 0%N)]; [(I_RefNull (Ht AH_Func))]] (EM_Active 0%N [(I_I32Const (6)%Z)])); (mkElem (mkRefType true (Ht AH_Func)) [[(I_RefFunc 1%N)]; [(I_RefNull (Ht AH_Func))]] EM_Passive); (mkElem (mkRefType true (Ht AH_Func)) [[(I_RefFunc 2%N)]; [(I_RefNull (Ht AH_Func))]] (EM_Active 1%N [(I_I32Const (3)%Z)])); (mkElem (mkRefType true (Ht AH_Func)) [[(I_RefNull (Ht AH_Func))]; [(I_RefFunc 3%N)]] EM_Declare)] None [] None [] [] []).
Proof. vm_compute. repeat split; reflexivity. Qed.
(** tests/tests.rs:977 *)
Example it_decodes_reference_instructions :
  decoded fx_reference_instructions = Ok (module_in fx_reference_instructions) /\
  (module_in fx_reference_instructions) = (mkModule VERSION [SK_Type; SK_Function; SK_Table; SK_Export; SK_Element; SK_Code] [(mkHeader SK_Type 4%N); (mkHeader SK_Function 3%N); (mkHeader SK_Table 4%N); (mkHeader SK_Export 8%N); (mkHeader SK_Element 5%N); (mkHeader SK_Code 48%N)] [] (map (fun ct => [mkSubType true [] ct]) [(CT_Func [] [])]) [(mkFunc 0%N [] []); (mkFunc 0%N [] [(I_RefNull (Ht AH_Func)); I_RefIsNull; I_Drop; (I_RefFunc 0%N); I_Drop; (I_RefNull (Ht AH_Func)); I_RefAsNonNull; I_Drop; (I_RefNull (Ht AH_Eq)); (I_RefNull (Ht AH_Eq)); I_RefEq; I_Drop; (I_RefFunc 0%N); (I_RefTest (mkRefType false (Ht AH_Func))); I_Drop; (I_RefNull (Ht AH_Func)); (I_RefTest (mkRefType true (Ht AH_Func))); I_Drop; (I_RefFunc 0%N); (I_RefCast (mkRefType false (Ht AH_Func))); I_Drop; (I_RefNull (Ht AH_Func)); (I_RefCast (mkRefType true (Ht AH_Func))); I_Drop])] [(mkTable (mkTableType (mkRefType true (Ht AH_Func)) (mkLimits AT_I32 1%N None)) [(I_RefNull (Ht AH_Func))])] [] [] [(mkElem (mkRefType true (Ht AH_Func)) [[(I_RefFunc 0%N)]] EM_Declare)] None [] None [] [(mkExport [x72; x65; x66; x73] (EI_Func 1%N))] []).
Proof. vm_compute. repeat split; reflexivity. Qed.
(** tests/tests.rs:1098 *)
Example it_decodes_ref_null_exn :
  decoded fx_ref_null_exn = Ok (module_in fx_ref_null_exn) /\
  (types (module_in fx_ref_null_exn)) = (map (fun ct => [mkSubType true [] ct]) [(CT_Func [] [(VT_Ref (mkRefType true (Ht AH_Exn)))])]) /\
  (funcs (module_in fx_ref_null_exn)) = [(mkFunc 0%N [] [(I_RefNull (Ht AH_Exn))])].
Proof. vm_compute. repeat split; reflexivity. Qed.
(** tests/tests.rs:1122 *)
Example it_decodes_ref_test_and_cast :
  decoded fx_ref_test_cast = Ok (module_in fx_ref_test_cast) /\
  (lenN (funcs (module_in fx_ref_test_cast))) = 1%N /\
  (f_body (nth 0 (funcs (module_in fx_ref_test_cast)) (mkFunc 99%N [] []))) = [(I_RefNull (Ht AH_Func)); (I_RefTest (mkRefType false (Ht AH_Func))); I_Drop; (I_RefNull (Ht AH_Func)); (I_RefTest (mkRefType true (Ht AH_Func))); I_Drop; (I_RefNull (Ht AH_Func)); (I_RefCast (mkRefType false (Ht AH_Func))); I_Drop; (I_RefNull (Ht AH_Func)); (I_RefCast (mkRefType true (Ht AH_Func))); I_Drop].
Proof. vm_compute. repeat split; reflexivity. Qed.
(** tests/tests.rs:1149 *)
Example it_decodes_reftype_heaptype_and_control_v3_forms :
  decoded fx_reftype_heaptype_control_v3 = Ok (module_in fx_reftype_heaptype_control_v3) /\
  (lenN (funcs (module_in fx_reftype_heaptype_control_v3))) = 5%N /\
  (f_body (nth 1 (funcs (module_in fx_reftype_heaptype_control_v3)) (mkFunc 99%N [] []))) = [(I_RefNull (Ht AH_NoExn)); I_Drop; (I_RefNull (HtIdx 0%N)); I_Drop; (I_RefNull (HtIdx 0%N)); (I_RefTest (mkRefType false (HtIdx 0%N))); I_Drop; (I_RefNull (HtIdx 0%N)); (I_RefCast (mkRefType false (HtIdx 0%N))); I_Drop] /\
  (f_body (nth 2 (funcs (module_in fx_reftype_heaptype_control_v3)) (mkFunc 99%N [] []))) = [(I_RefFunc 0%N); (I_CallRef 0%N); (I_RefFunc 0%N); (I_ReturnCallRef 0%N)] /\
  (f_body (nth 3 (funcs (module_in fx_reftype_heaptype_control_v3)) (mkFunc 99%N [] []))) = [(I_Block (BT_T (VT_Ref (mkRefType true (Ht AH_Any)))) [(I_LocalGet 0%N); (I_BrOnCast 0%N (mkRefType true (Ht AH_Any)) (mkRefType true (Ht AH_Eq)))]); I_Drop] /\
  (f_body (nth 4 (funcs (module_in fx_reftype_heaptype_control_v3)) (mkFunc 99%N [] []))) = [(I_Block (BT_T (VT_Ref (mkRefType true (Ht AH_Any)))) [(I_LocalGet 0%N); (I_BrOnCastFail 0%N (mkRefType true (Ht AH_Any)) (mkRefType true (Ht AH_Eq)))]); I_Drop] /\
  (elems (module_in fx_reftype_heaptype_control_v3)) = [(mkElem (mkRefType true (Ht AH_Func)) [[(I_RefFunc 0%N)]] EM_Declare)].
Proof. vm_compute. repeat split; reflexivity. Qed.
(** tests/tests.rs:1252 *)
Example it_decodes_aggregate_instructions :
  decoded fx_aggregate_instructions_gc = Ok (module_in fx_aggregate_instructions_gc) /\
  (lenN (funcs (module_in fx_aggregate_instructions_gc))) = 1%N /\
  (f_body (nth 0 (funcs (module_in fx_aggregate_instructions_gc)) (mkFunc 99%N [] []))) = [(I_StructNew 0%N); (I_StructNewDefault 0%N); (I_StructGet 0%N 0%N); (I_StructGetS 0%N 1%N); (I_StructGetU 0%N 2%N); (I_StructSet 0%N 0%N); (I_ArrayNew 1%N); (I_ArrayNewDefault 1%N); (I_ArrayNewFixed 1%N 3%N); (I_ArrayNewData 1%N 0%N); (I_ArrayNewElem 1%N 0%N); (I_ArrayGet 2%N); (I_ArrayGetS 1%N); (I_ArrayGetU 1%N); (I_ArraySet 1%N); I_ArrayLen; (I_ArrayFill 1%N); (I_ArrayCopy 1%N 2%N); (I_ArrayInitData 1%N 0%N); (I_ArrayInitElem 1%N 0%N); I_AnyConvertExtern; I_ExternConvertAny; I_RefI31; I_I31GetS; I_I31GetU].
Proof. vm_compute. repeat split; reflexivity. Qed.
(** tests/tests.rs:1292 *)
Example it_decodes_variable_instructions :
  decoded fx_variable_instructions = Ok (module_in fx_variable_instructions) /\
  (module_in fx_variable_instructions) = (mkModule VERSION [SK_Type; SK_Function; SK_Global; SK_Export; SK_Code] [(mkHeader SK_Type 6%N); (mkHeader SK_Function 2%N); (mkHeader SK_Global 6%N); (mkHeader SK_Export 7%N); (mkHeader SK_Code 20%N)] [] (map (fun ct => [mkSubType true [] ct]) [(CT_Func [(VT_Num Int32); (VT_Num Int32)] [])]) [(mkFunc 0%N [] [(I_LocalGet 0%N); (I_LocalSet 1%N); (I_LocalGet 1%N); (I_LocalTee 0%N); I_Drop; (I_GlobalGet 0%N); I_Drop; (I_LocalGet 1%N); (I_GlobalSet 0%N)])] [] [] [(mkGlobal (mkGlobalType Var (VT_Num Int32)) [(I_I32Const (0)%Z)])] [] None [] None [] [(mkExport [x76; x61; x72] (EI_Func 0%N))] []).
Proof. vm_compute. repeat split; reflexivity. Qed.
(** tests/tests.rs:1371 *)
Example it_decodes_parametric_instructions :
  decoded fx_parametric_instructions = Ok (module_in fx_parametric_instructions) /\
  (module_in fx_parametric_instructions) = (mkModule VERSION [SK_Type; SK_Function; SK_Export; SK_Code] [(mkHeader SK_Type 8%N); (mkHeader SK_Function 2%N); (mkHeader SK_Export 9%N); (mkHeader SK_Code 24%N)] [] (map (fun ct => [mkSubType true [] ct]) [(CT_Func [(VT_Num Int32); (VT_Num Int32); (VT_Num Int32)] [(VT_Num Int32)])]) [(mkFunc 0%N [] [(I_LocalGet 0%N); (I_LocalGet 1%N); (I_LocalGet 2%N); (I_Select None); I_Drop; (I_LocalGet 0%N); (I_LocalGet 1%N); (I_LocalGet 2%N); (I_Select (Some [(VT_Num Int32)])); I_Drop; (I_LocalGet 0%N)])] [] [] [] [] None [] None [] [(mkExport [x70; x61; x72; x61; x6d] (EI_Func 0%N))] []).
Proof. vm_compute. repeat split; reflexivity. Qed.
(** tests/tests.rs:1446 *)
Example it_decodes_table_entry_init_expr :
  decoded fx_table_entry_init_expr = Ok (module_in fx_table_entry_init_expr) /\
  (module_in fx_table_entry_init_expr) = (mkModule VERSION [SK_Type; SK_Function; SK_Table; SK_Code] [(mkHeader SK_Type 4%N); (mkHeader SK_Function 2%N); (mkHeader SK_Table 9%N); (mkHeader SK_Code 4%N)] [] (map (fun ct => [mkSubType true [] ct]) [(CT_Func [] [])]) [(mkFunc 0%N [] [])] [(mkTable (mkTableType (mkRefType true (Ht AH_Func)) (mkLimits AT_I32 1%N None)) [(I_RefFunc 0%N)])] [] [] [] None [] None [] [] []).
Proof. vm_compute. repeat split; reflexivity. Qed.
(** tests/tests.rs:1511 *)
Example it_decodes_table_instructions :
  decoded fx_table_instructions = Ok (module_in fx_table_instructions) /\
  (module_in fx_table_instructions) = (mkModule VERSION [SK_Type; SK_Function; SK_Table; SK_Export; SK_Element; SK_Code] [(mkHeader SK_Type 9%N); (mkHeader SK_Function 3%N); (mkHeader SK_Table 7%N); (mkHeader SK_Export 13%N); (mkHeader SK_Element 9%N); (mkHeader SK_Code 66%N)] [] (map (fun ct => [mkSubType true [] ct]) [(CT_Func [] []); (CT_Func [(VT_Num Int32); (VT_Num Int32)] [])]) [(mkFunc 0%N [] []); (mkFunc 1%N [] [(I_LocalGet 0%N); (I_TableGet 0%N); I_Drop; (I_LocalGet 0%N); (I_RefNull (Ht AH_Func)); (I_TableSet 0%N); (I_I32Const (0)%Z); (I_I32Const (0)%Z); (I_I32Const (1)%Z); (I_TableInit 0%N 1%N); (I_ElemDrop 1%N); (I_I32Const (0)%Z); (I_RefNull (Ht AH_Func)); (I_I32Const (1)%Z); (I_TableFill 0%N); (I_TableSize 0%N); I_Drop; (I_RefNull (Ht AH_Func)); (I_LocalGet 1%N); (I_TableGrow 0%N); I_Drop; (I_I32Const (0)%Z); (I_I32Const (0)%Z); (I_I32Const (1)%Z); (I_TableCopy 0%N 1%N); (I_TableSize 0%N); I_Drop])] [(mkTable (mkTableType (mkRefType true (Ht AH_Func)) (mkLimits AT_I32 4%N None)) [(I_RefNull (Ht AH_Func))]); (mkTable (mkTableType (mkRefType true (Ht AH_Func)) (mkLimits AT_I32 4%N None)) [(I_RefNull (Ht AH_Func))])] [] [] [(mkElem (mkRefType true (Ht AH_Func)) [[(I_RefFunc 0%N)]] EM_Passive); (mkElem (mkRefType true (Ht AH_Func)) [[(I_RefFunc 0%N)]] EM_Passive)] None [] None [] [(mkExport [x74; x61; x62; x6c; x65; x5f; x6f; x70; x73] (EI_Func 1%N))] []).
Proof. vm_compute. repeat split; reflexivity. Qed.
(** tests/tests.rs:1660 *)
Example it_decodes_memory_instructions :
  decoded fx_memory_instructions = Ok (module_in fx_memory_instructions) /\
  (module_in fx_memory_instructions) = (mkModule VERSION [SK_Type; SK_Function; SK_Memory; SK_Export; SK_DataCount; SK_Code; SK_Data] [(mkHeader SK_Type 4%N); (mkHeader SK_Function 2%N); (mkHeader SK_Memory 3%N); (mkHeader SK_Export 20%N); (mkHeader SK_DataCount 1%N); (mkHeader SK_Code 201%N); (mkHeader SK_Data 46%N)] [] (map (fun ct => [mkSubType true [] ct]) [(CT_Func [] [])]) [(mkFunc 0%N [(VT_Num Float32); (VT_Num Float64)] [(I_I32Const (0)%Z); (I_I32Load (mkMemarg 0%N 2%N 0%N)); I_Drop; (I_I32Const (0)%Z); (I_I64Load (mkMemarg 0%N 3%N 0%N)); I_Drop; (I_I32Const (0)%Z); (I_F32Load (mkMemarg 0%N 2%N 0%N)); (I_LocalTee 0%N); I_Drop; (I_I32Const (0)%Z); (I_F64Load (mkMemarg 0%N 3%N 0%N)); (I_LocalTee 1%N); I_Drop; (I_I32Const (0)%Z); (I_I32Load8s (mkMemarg 0%N 0%N 0%N)); I_Drop; (I_I32Const (0)%Z); (I_I32Load8u (mkMemarg 0%N 0%N 0%N)); I_Drop; (I_I32Const (0)%Z); (I_I32Load16s (mkMemarg 0%N 1%N 0%N)); I_Drop; (I_I32Const (0)%Z); (I_I32Load16u (mkMemarg 0%N 1%N 0%N)); I_Drop; (I_I32Const (0)%Z); (I_I64Load8s (mkMemarg 0%N 0%N 0%N)); I_Drop; (I_I32Const (0)%Z); (I_I64Load8u (mkMemarg 0%N 0%N 0%N)); I_Drop; (I_I32Const (0)%Z); (I_I64Load16s (mkMemarg 0%N 1%N 0%N)); I_Drop; (I_I32Const (0)%Z); (I_I64Load16u (mkMemarg 0%N 1%N 0%N)); I_Drop; (I_I32Const (0)%Z); (I_I64Load32s (mkMemarg 0%N 2%N 0%N)); I_Drop; (I_I32Const (0)%Z); (I_I64Load32u (mkMemarg 0%N 2%N 0%N)); I_Drop; (I_I32Const (4)%Z); (I_I32Const (1)%Z); (I_I32Store (mkMemarg 0%N 2%N 0%N)); (I_I32Const (8)%Z); (I_I64Const (2)%Z); (I_I64Store (mkMemarg 0%N 3%N 0%N)); (I_I32Const (16)%Z); (I_LocalGet 0%N); (I_F32Store (mkMemarg 0%N 2%N 0%N)); (I_I32Const (24)%Z); (I_LocalGet 1%N); (I_F64Store (mkMemarg 0%N 3%N 0%N)); (I_I32Const (32)%Z); (I_I32Const (5)%Z); (I_I32Store8 (mkMemarg 0%N 0%N 0%N)); (I_I32Const (34)%Z); (I_I32Const (6)%Z); (I_I32Store16 (mkMemarg 0%N 1%N 0%N)); (I_I32Const (36)%Z); (I_I64Const (7)%Z); (I_I64Store8 (mkMemarg 0%N 0%N 0%N)); (I_I32Const (38)%Z); (I_I64Const (8)%Z); (I_I64Store16 (mkMemarg 0%N 1%N 0%N)); (I_I32Const (40)%Z); (I_I64Const (9)%Z); (I_I64Store32 (mkMemarg 0%N 2%N 0%N)); (I_MemorySize 0%N); I_Drop; (I_I32Const (0)%Z); (I_MemoryGrow 0%N); I_Drop; (I_I32Const (0)%Z); (I_I32Const (0)%Z); (I_I32Const (4)%Z); (I_MemoryInit 0%N 1%N); (I_DataDrop 1%N); (I_I32Const (8)%Z); (I_I32Const (0)%Z); (I_I32Const (4)%Z); (I_MemoryCopy 0%N 0%N); (I_I32Const (12)%Z); (I_I32Const (255)%Z); (I_I32Const (4)%Z); (I_MemoryFill 0%N)])] [] [(mkMemType (mkLimits AT_I32 1%N None))] [] [] (Some 2%N) [(mkData [x00; x01; x02; x03; x04; x05; x06; x07; x08; x09; x0a; x0b; x0c; x0d; x0e; x0f; x10; x11; x12; x13; x14; x15; x16; x17; x18; x19; x1a; x1b; x1c; x1d; x1e; x1f] (DM_Active 0%N [(I_I32Const (0)%Z)])); (mkData [xaa; xbb; xcc; xdd; xee; xff] DM_Passive)] None [] [(mkExport [x6d; x65; x6d] (EI_Mem 0%N)); (mkExport [x75; x73; x65; x2d; x6d; x65; x6d; x6f; x72; x79] (EI_Func 0%N))] []).
Proof. vm_compute. repeat split; reflexivity. Qed.
(** tests/tests.rs:1953 *)
Example it_decodes_memarg_with_memidx_for_loads_and_stores :
  decoded fx_memory_instructions_memidx = Ok (module_in fx_memory_instructions_memidx) /\
  (lenN (mems (module_in fx_memory_instructions_memidx))) = 2%N.
Proof. vm_compute. repeat split; reflexivity. Qed.
(** tests/tests.rs:2120 *)
Example it_decodes_multi_memory_immediates :
  decoded fx_memory_instructions_multi_memidx = Ok (module_in fx_memory_instructions_multi_memidx) /\
  (lenN (mems (module_in fx_memory_instructions_multi_memidx))) = 2%N /\
  (mems (module_in fx_memory_instructions_multi_memidx)) = [(mkMemType (mkLimits AT_I32 1%N None)); (mkMemType (mkLimits AT_I32 1%N None))] /\
  (lenN (funcs (module_in fx_memory_instructions_multi_memidx))) = 1%N /\
  (f_body (nth 0 (funcs (module_in fx_memory_instructions_multi_memidx)) (mkFunc 99%N [] []))) = [(I_I32Const (0)%Z); (I_I32Load (mkMemarg 1%N 2%N 0%N)); I_Drop; (I_MemorySize 1%N); I_Drop; (I_I32Const (1)%Z); (I_MemoryGrow 1%N); I_Drop; (I_I32Const (0)%Z); (I_I32Const (0)%Z); (I_I32Const (2)%Z); (I_MemoryInit 1%N 0%N); (I_I32Const (0)%Z); (I_I32Const (0)%Z); (I_I32Const (2)%Z); (I_MemoryCopy 1%N 0%N); (I_I32Const (0)%Z); (I_I32Const (7)%Z); (I_I32Const (2)%Z); (I_MemoryFill 1%N)] /\
  (lenN (datas (module_in fx_memory_instructions_multi_memidx))) = 1%N /\
  (d_init (nth 0 (datas (module_in fx_memory_instructions_multi_memidx)) (mkData [] DM_Passive))) = [x68; x69] /\
  (d_mode (nth 0 (datas (module_in fx_memory_instructions_multi_memidx)) (mkData [] DM_Passive))) = DM_Passive.
Proof. vm_compute. repeat split; reflexivity. Qed.
(** tests/tests.rs:2182 *)
Example it_decodes_multi_memory_kitchensink :
  decoded fx_multi_memory_kitchensink = Ok (module_in fx_multi_memory_kitchensink) /\
  (lenN (mems (module_in fx_multi_memory_kitchensink))) = 2%N /\
  (mems (module_in fx_multi_memory_kitchensink)) = [(mkMemType (mkLimits AT_I32 1%N None)); (mkMemType (mkLimits AT_I32 1%N None))] /\
  (data_count (module_in fx_multi_memory_kitchensink)) = (Some 3%N) /\
  (lenN (datas (module_in fx_multi_memory_kitchensink))) = 3%N /\
  (d_init (nth 0 (datas (module_in fx_multi_memory_kitchensink)) (mkData [] DM_Passive))) = [x41] /\
  (d_mode (nth 0 (datas (module_in fx_multi_memory_kitchensink)) (mkData [] DM_Passive))) = (DM_Active 0%N [(I_I32Const (0)%Z)]) /\
  (d_init (nth 1 (datas (module_in fx_multi_memory_kitchensink)) (mkData [] DM_Passive))) = [x42; x43] /\
  (d_mode (nth 1 (datas (module_in fx_multi_memory_kitchensink)) (mkData [] DM_Passive))) = DM_Passive /\
  (d_init (nth 2 (datas (module_in fx_multi_memory_kitchensink)) (mkData [] DM_Passive))) = [x44; x45; x46] /\
  (d_mode (nth 2 (datas (module_in fx_multi_memory_kitchensink)) (mkData [] DM_Passive))) = (DM_Active 1%N [(I_I32Const (4)%Z)]) /\
  (lenN (funcs (module_in fx_multi_memory_kitchensink))) = 1%N /\
  (f_body (nth 0 (funcs (module_in fx_multi_memory_kitchensink)) (mkFunc 99%N [] []))) = [(I_I32Const (0)%Z); (I_I32Load (mkMemarg 0%N 2%N 0%N)); I_Drop; (I_I32Const (0)%Z); (I_I32Load (mkMemarg 1%N 2%N 0%N)); I_Drop; (I_I32Const (0)%Z); (I_I64Const (1)%Z); (I_I64Store (mkMemarg 1%N 3%N 0%N)); (I_I32Const (0)%Z); (I_I32Load (mkMemarg 0%N 0%N 16%N)); I_Drop; (I_MemorySize 0%N); I_Drop; (I_MemorySize 1%N); I_Drop; (I_I32Const (0)%Z); (I_MemoryGrow 0%N); I_Drop; (I_I32Const (0)%Z); (I_MemoryGrow 1%N); I_Drop; (I_I32Const (0)%Z); (I_I32Const (0)%Z); (I_I32Const (1)%Z); (I_MemoryInit 0%N 1%N); (I_DataDrop 1%N); (I_I32Const (0)%Z); (I_I32Const (0)%Z); (I_I32Const (1)%Z); (I_MemoryInit 1%N 1%N); (I_I32Const (0)%Z); (I_I32Const (0)%Z); (I_I32Const (1)%Z); (I_MemoryCopy 0%N 1%N); (I_I32Const (0)%Z); (I_I32Const (0)%Z); (I_I32Const (1)%Z); (I_MemoryCopy 1%N 0%N); (I_I32Const (0)%Z); (I_I32Const (255)%Z); (I_I32Const (1)%Z); (I_MemoryFill 0%N); (I_I32Const (0)%Z); (I_I32Const (7)%Z); (I_I32Const (1)%Z); (I_MemoryFill 1%N)].
Proof. vm_compute. repeat split; reflexivity. Qed.
(** tests/tests.rs:2299 *)
Example it_accepts_export_with_locals :
  decoded fx_with_locals_exported = Ok (module_in fx_with_locals_exported) /\
  (module_in fx_with_locals_exported) = (mkModule VERSION [SK_Type; SK_Function; SK_Export; SK_Code] [(mkHeader SK_Type 7%N); (mkHeader SK_Function 2%N); (mkHeader SK_Export 14%N); (mkHeader SK_Code 11%N)] [] (map (fun ct => [mkSubType true [] ct]) [(CT_Func [(VT_Num Int32); (VT_Num Int32)] [(VT_Num Int32)])]) [(mkFunc 0%N [(VT_Num Int32); (VT_Num Int32)] [(I_LocalGet 0%N); (I_LocalGet 1%N); I_I32Add])] [] [] [] [] None [] None [] [(mkExport [x61; x64; x64; x5f; x6c; x6f; x63; x61; x6c; x73] (EI_Func 0%N))] []).
Proof. vm_compute. repeat split; reflexivity. Qed.
(** tests/tests.rs:2363 *)
Example it_accepts_kitchensink :
  decoded fx_kitchensink = Ok (module_in fx_kitchensink) /\
  (module_in fx_kitchensink) = (mkModule VERSION [SK_Type; SK_Import; SK_Function; SK_Table; SK_Memory; SK_Global; SK_Export; SK_Start; SK_Element; SK_Code; SK_Data] [(mkHeader SK_Custom 7%N); (mkHeader SK_Type 10%N); (mkHeader SK_Import 16%N); (mkHeader SK_Function 3%N); (mkHeader SK_Table 4%N); (mkHeader SK_Memory 3%N); (mkHeader SK_Global 6%N); (mkHeader SK_Export 24%N); (mkHeader SK_Start 1%N); (mkHeader SK_Element 7%N); (mkHeader SK_Code 14%N); (mkHeader SK_Data 10%N)] [(mkCustom [x6e; x6f; x74; x65] [x68; x69])] (map (fun ct => [mkSubType true [] ct]) [(CT_Func [] []); (CT_Func [(VT_Num Int32); (VT_Num Int32)] [(VT_Num Int32)])]) [(mkFunc 0%N [] [(I_Call 0%N)]); (mkFunc 1%N [] [(I_LocalGet 0%N); (I_LocalGet 1%N); I_I32Add])] [(mkTable (mkTableType (mkRefType true (Ht AH_Func)) (mkLimits AT_I32 1%N None)) [(I_RefNull (Ht AH_Func))])] [(mkMemType (mkLimits AT_I32 1%N None))] [(mkGlobal (mkGlobalType Var (VT_Num Int32)) [(I_I32Const (42)%Z)])] [(mkElem (mkRefType false (Ht AH_Func)) [[(I_RefFunc 2%N)]] (EM_Active 0%N [(I_I32Const (0)%Z)]))] None [(mkData [x00; x11; x22; x33] (DM_Active 0%N [(I_I32Const (0)%Z)]))] (Some 1%N) [(mkImport [x65; x6e; x76] [x69; x6d; x70; x73; x74; x61; x72; x74] (ET_Func 0%N))] [(mkExport [x61; x64; x64] (EI_Func 2%N)); (mkExport [x6d; x65; x6d] (EI_Mem 0%N)); (mkExport [x74; x61; x62] (EI_Table 0%N)); (mkExport [x67; x30] (EI_Global 0%N))] []).
Proof. vm_compute. repeat split; reflexivity. Qed.
(** tests/tests.rs:2552 *)
Example it_decodes_data_section_multiple_segments :
  decoded fx_data_section_multi_segment = Ok (module_in fx_data_section_multi_segment) /\
  (module_in fx_data_section_multi_segment) = (mkModule VERSION [SK_Memory; SK_Data] [(mkHeader SK_Memory 3%N); (mkHeader SK_Data 14%N)] [] [] [] [] [(mkMemType (mkLimits AT_I32 1%N None))] [] [] None [(mkData [x41] (DM_Active 0%N [(I_I32Const (0)%Z)])); (mkData [x42] (DM_Active 0%N [(I_I32Const (1)%Z)]))] None [] [] []).
Proof. vm_compute. repeat split; reflexivity. Qed.
(** tests/tests.rs:2912 *)
Example it_decodes_vector_instructions :
  decoded fx_vector_instructions = Ok (module_in fx_vector_instructions) /\
  (parsed_section_kinds (module_in fx_vector_instructions)) = [SK_Type; SK_Function; SK_Memory; SK_Export; SK_Code; SK_Data] /\
  (section_headers (module_in fx_vector_instructions)) = [(mkHeader SK_Type 4%N); (mkHeader SK_Function 2%N); (mkHeader SK_Memory 3%N); (mkHeader SK_Export 15%N); (mkHeader SK_Code 204%N); (mkHeader SK_Data 70%N)] /\
  (types (module_in fx_vector_instructions)) = (map (fun ct => [mkSubType true [] ct]) [(CT_Func [] [])]) /\
  (mems (module_in fx_vector_instructions)) = [(mkMemType (mkLimits AT_I32 1%N None))] /\
  (exports (module_in fx_vector_instructions)) = [(mkExport [x75; x73; x65; x5f; x76; x65; x63; x74; x6f; x72; x73] (EI_Func 0%N))] /\
  (lenN (funcs (module_in fx_vector_instructions))) = 1%N /\
  (f_type (nth 0 (funcs (module_in fx_vector_instructions)) (mkFunc 99%N [] []))) = 0%N /\
  (lenN (f_body (nth 0 (funcs (module_in fx_vector_instructions)) (mkFunc 99%N [] [])))) = 26%N /\
  (f_body (nth 0 (funcs (module_in fx_vector_instructions)) (mkFunc 99%N [] []))) = [(I_I32Const (0)%Z); (I_V128Load (mkMemarg 0%N 4%N 0%N)); (I_I32Const (16)%Z); (I_V128Load (mkMemarg 0%N 4%N 0%N)); I_I8x16Add; (I_V128Const [x00; x01; x02; x03; x04; x05; x06; x07; x08; x09; x0a; x0b; x0c; x0d; x0e; x0f]); (I_V128Const [x10; x11; x12; x13; x14; x15; x16; x17; x18; x19; x1a; x1b; x1c; x1d; x1e; x1f]); I_V128Bitselect; I_Drop; (I_V128Const [x20; x21; x22; x23; x24; x25; x26; x27; x28; x29; x2a; x2b; x2c; x2d; x2e; x2f]); (I_I8x16ExtractLaneS x00); I_Drop; (I_V128Const [x30; x31; x32; x33; x34; x35; x36; x37; x38; x39; x3a; x3b; x3c; x3d; x3e; x3f]); (I_I32Const (7)%Z); (I_I8x16ReplaceLane x05); I_Drop; (I_V128Const [x40; x41; x42; x43; x44; x45; x46; x47; x48; x49; x4a; x4b; x4c; x4d; x4e; x4f]); (I_V128Const [x50; x51; x52; x53; x54; x55; x56; x57; x58; x59; x5a; x5b; x5c; x5d; x5e; x5f]); (I_I8x16Shuffle [x00; x10; x01; x11; x02; x12; x03; x13; x04; x14; x05; x15; x06; x16; x07; x17]); I_Drop; (I_V128Const [x60; x61; x62; x63; x64; x65; x66; x67; x68; x69; x6a; x6b; x6c; x6d; x6e; x6f]); I_V128AnyTrue; I_Drop; (I_I32Const (0)%Z); (I_V128Const [x70; x71; x72; x73; x74; x75; x76; x77; x78; x79; x7a; x7b; x7c; x7d; x7e; x7f]); (I_V128Store (mkMemarg 0%N 4%N 0%N))] /\
  (lenN (datas (module_in fx_vector_instructions))) = 1%N.
Proof. vm_compute. repeat split; reflexivity. Qed.
(** tests/tests.rs:3078 *)
Example it_decodes_relaxed_simd_instructions :
  decoded fx_relaxed_simd_instructions = Ok (module_in fx_relaxed_simd_instructions) /\
  (lenN (funcs (module_in fx_relaxed_simd_instructions))) = 1%N /\
  (f_locals (nth 0 (funcs (module_in fx_relaxed_simd_instructions)) (mkFunc 99%N [] []))) = (repeat (VT_Vec V128) 3).
Proof. vm_compute. repeat split; reflexivity. Qed.
(** tests/tests.rs:3146 *)
Example it_decodes_simd_memarg_with_memidx :
  decoded fx_vector_memory_instructions_memidx = Ok (module_in fx_vector_memory_instructions_memidx) /\
  (lenN (mems (module_in fx_vector_memory_instructions_memidx))) = 2%N.
Proof. vm_compute. repeat split; reflexivity. Qed.
(** tests/tests.rs:3331 *)
Example it_respects_mem_limits :
  decoded fx_mem_limits_bug = Ok (module_in fx_mem_limits_bug) /\
  (module_in fx_mem_limits_bug) = (mkModule VERSION [SK_Memory] [(mkHeader SK_Memory 5%N)] [] [] [] [] [(mkMemType (mkLimits AT_I32 1%N (Some 129%N)))] [] [] None [] None [] [] []).
Proof. vm_compute. repeat split; reflexivity. Qed.
(** tests/tests.rs:3359 *)
Example it_decodes_memory64_limits_flags :
  decoded fx_memory64_limits_min_max = Ok (module_in fx_memory64_limits_min_max) /\
  decoded fx_memory64_limits_min = Ok (module_in fx_memory64_limits_min) /\
  (mems (module_in fx_memory64_limits_min)) = [(mkMemType (mkLimits AT_I64 1%N None))] /\
  (mems (module_in fx_memory64_limits_min_max)) = [(mkMemType (mkLimits AT_I64 1%N (Some 2%N)))].
Proof. vm_compute. repeat split; reflexivity. Qed.
(** tests/tests.rs:3389 *)
Example it_decodes_memory64_limits_large_values :
  decoded fx_memory64_limits_large = Ok (module_in fx_memory64_limits_large) /\
  (mems (module_in fx_memory64_limits_large)) = [(mkMemType (mkLimits AT_I64 4294967296%N (Some 4294967301%N)))].
Proof. vm_compute. repeat split; reflexivity. Qed.

(** ** malformed fixtures: expected errors *)
(** tests/tests.rs:3406 *)
Example err_code_section_size_underreported : decoded fx_code_section_size_underreported =
  Err (DM_DecodeCodeSection (CodeSec_DecodeList (ParseElement 0%N (Code_DecodeFunctionBody (Expr_ParseInstruction (PE_ReadOpcode UnexpectedEof)))))).
Proof. vm_compute. reflexivity. Qed.
(** tests/tests.rs:3424 *)
Example err_custom_section_size_overreported : decoded fx_custom_section_size_overreported =
  Err (DM_SectionSizeMismatch SK_Custom 5%N 3%N).
Proof. vm_compute. reflexivity. Qed.
Example err_global_section_invalid_mutability_byte : decoded fx_global_section_invalid_mutability_byte =
  Err (DM_DecodeGlobalSection (GlobalSec_DecodeList (ParseElement 0%N (Glob_DecodeGlobalType (GT_InvalidMutability (InvalidMutabilityByte xff)))))).
Proof. vm_compute. reflexivity. Qed.
(** tests/error_types.rs:732 *)
Example err_malformed_block_missing_blocktype : decoded fx_malformed_block_missing_blocktype =
  Err (DM_DecodeCodeSection (CodeSec_DecodeList (ParseElement 0%N (Code_DecodeFunctionBody (Expr_ParseInstruction (PE_Control (Ctl_BlockType (BT_ReadMarkerByte UnexpectedEof)))))))).
Proof. vm_compute. reflexivity. Qed.
(** tests/error_types.rs:786 *)
Example err_malformed_block_unexpected_else : decoded fx_malformed_block_unexpected_else =
  Err (DM_DecodeCodeSection (CodeSec_DecodeList (ParseElement 0%N (Code_DecodeFunctionBody (Expr_ParseInstruction (PE_Control Ctl_UnexpectedElse)))))).
Proof. vm_compute. reflexivity. Qed.
(** tests/error_types.rs:1560 *)
Example err_malformed_blocktype_index_truncated : decoded fx_malformed_blocktype_index_truncated =
  Err (DM_DecodeCodeSection (CodeSec_DecodeList (ParseElement 0%N (Code_DecodeFunctionBody (Expr_ParseInstruction (PE_Control (Ctl_BlockType (BT_DecodeIndex (S33_Io UnexpectedEof))))))))).
Proof. vm_compute. reflexivity. Qed.
(** tests/error_types.rs:1588 *)
Example err_malformed_blocktype_negative_typeidx : decoded fx_malformed_blocktype_negative_typeidx =
  Err (DM_DecodeCodeSection (CodeSec_DecodeList (ParseElement 0%N (Code_DecodeFunctionBody (Expr_ParseInstruction (PE_Control (Ctl_BlockType (BT_NegativeTypeIndex (-33)%Z)))))))).
Proof. vm_compute. reflexivity. Qed.
(** tests/error_types.rs:266 *)
Example err_malformed_br_labelidx_overlong : decoded fx_malformed_br_labelidx_overlong =
  Err (DM_DecodeCodeSection (CodeSec_DecodeList (ParseElement 0%N (Code_DecodeFunctionBody (Expr_ParseInstruction (PE_Control (Ctl_LabelIdx (LabelIdxE U32_RepresentationTooLong)))))))).
Proof. vm_compute. reflexivity. Qed.
(** tests/error_types.rs:350 *)
Example err_malformed_br_on_cast_invalid_nullability : decoded fx_malformed_br_on_cast_invalid_nullability =
  Err (DM_DecodeCodeSection (CodeSec_DecodeList (ParseElement 0%N (Code_DecodeFunctionBody (Expr_ParseInstruction (PE_Control (Ctl_InvalidCastNullabilityMarker x04))))))).
Proof. vm_compute. reflexivity. Qed.
(** tests/error_types.rs:611 *)
Example err_malformed_br_table_labelidxvector_overlong : decoded fx_malformed_br_table_labelidxvector_overlong =
  Err (DM_DecodeCodeSection (CodeSec_DecodeList (ParseElement 0%N (Code_DecodeFunctionBody (Expr_ParseInstruction (PE_Control (Ctl_DecodeLabelIdxVector (ParseElement 0%N (LabelIdxE U32_RepresentationTooLong))))))))).
Proof. vm_compute. reflexivity. Qed.
(** tests/error_types.rs:676 *)
Example err_malformed_call_indirect_tableidx_overlong : decoded fx_malformed_call_indirect_tableidx_overlong =
  Err (DM_DecodeCodeSection (CodeSec_DecodeList (ParseElement 0%N (Code_DecodeFunctionBody (Expr_ParseInstruction (PE_Control (Ctl_TableIdx (TableIdxE U32_RepresentationTooLong)))))))).
Proof. vm_compute. reflexivity. Qed.
(** tests/error_types.rs:704 *)
Example err_malformed_call_indirect_typeidx_overlong : decoded fx_malformed_call_indirect_typeidx_overlong =
  Err (DM_DecodeCodeSection (CodeSec_DecodeList (ParseElement 0%N (Code_DecodeFunctionBody (Expr_ParseInstruction (PE_Control (Ctl_TypeIdx (TypeIdxE U32_RepresentationTooLong)))))))).
Proof. vm_compute. reflexivity. Qed.
(** tests/error_types.rs:239 *)
Example err_malformed_code_body_missing_opcode : decoded fx_malformed_code_body_missing_opcode =
  Err (DM_DecodeCodeSection (CodeSec_DecodeList (ParseElement 0%N (Code_DecodeFunctionBody (Expr_ParseInstruction (PE_ReadOpcode UnexpectedEof)))))).
Proof. vm_compute. reflexivity. Qed.
(** tests/error_types.rs:2094 *)
Example err_malformed_code_func_len_mismatch : decoded fx_malformed_code_func_len_mismatch =
  Err (DM_CodeFuncEntriesLenMismatch 0 1).
Proof. vm_compute. reflexivity. Qed.
(** tests/error_types.rs:2721 *)
Example err_malformed_code_section_entry_size_mismatch : decoded fx_malformed_code_section_entry_size_mismatch =
  Err (DM_DecodeCodeSection (CodeSec_DecodeList (ParseElement 0%N (Code_EntrySizeMismatch 3%N 1%N 2%N)))).
Proof. vm_compute. reflexivity. Qed.
(** tests/error_types.rs:2568 *)
Example err_malformed_code_section_function_size_truncated : decoded fx_malformed_code_section_function_size_truncated =
  Err (DM_DecodeCodeSection (CodeSec_DecodeList (ParseElement 0%N (Code_DecodeFunctionSize (U32_Io UnexpectedEof))))).
Proof. vm_compute. reflexivity. Qed.
(** tests/error_types.rs:2685 *)
Example err_malformed_code_section_local_valtype_invalid : decoded fx_malformed_code_section_local_valtype_invalid =
  Err (DM_DecodeCodeSection (CodeSec_DecodeList (ParseElement 0%N (Code_DecodeLocalsVector (ParseElement 0%N (Loc_DecodeLocalValType (VTE_DecodeRefType (RT_InvalidMarkerByte (AHT_InvalidMarkerByte (InvalidAbsHeapTypeMarker xff)))))))))).
Proof. vm_compute. reflexivity. Qed.
(** tests/error_types.rs:2656 *)
Example err_malformed_code_section_locals_count_decode_error : decoded fx_malformed_code_section_locals_count_decode_error =
  Err (DM_DecodeCodeSection (CodeSec_DecodeList (ParseElement 0%N (Code_DecodeLocalsVector (ParseElement 0%N (Loc_DecodeLocalsCount (U32_Io UnexpectedEof))))))).
Proof. vm_compute. reflexivity. Qed.
(** tests/error_types.rs:2621 *)
Example err_malformed_code_section_locals_count_out_of_bounds : decoded fx_malformed_code_section_locals_count_out_of_bounds =
  Err (DM_DecodeCodeSection (CodeSec_DecodeList (ParseElement 0%N (Code_DecodeLocalsVector (ParseElement 1%N (Loc_LocalsCountOutOfBound 4294967295%N 4294967296%N)))))).
Proof. vm_compute. reflexivity. Qed.
(** tests/error_types.rs:2597 *)
Example err_malformed_code_section_locals_vector_length_overlong : decoded fx_malformed_code_section_locals_vector_length_overlong =
  Err (DM_DecodeCodeSection (CodeSec_DecodeList (ParseElement 0%N (Code_DecodeLocalsVector (DecodeLength U32_RepresentationTooLong))))).
Proof. vm_compute. reflexivity. Qed.
(** tests/error_types.rs:2228 *)
Example err_malformed_custom_name_invalid_utf8 : decoded fx_malformed_custom_name_invalid_utf8 =
  Err (DM_DecodeCustomSection (Cust_DecodeName (Name_Utf8 [xff]))).
Proof. vm_compute. reflexivity. Qed.
(** tests/error_types.rs:2192 *)
Example err_malformed_custom_name_length_overlong : decoded fx_malformed_custom_name_length_overlong =
  Err (DM_DecodeCustomSection (Cust_DecodeName (Name_DecodeByteVector (BV_DecodeLength U32_RepresentationTooLong)))).
Proof. vm_compute. reflexivity. Qed.
(** tests/error_types.rs:2211 *)
Example err_malformed_custom_name_truncated_bytes : decoded fx_malformed_custom_name_truncated_bytes =
  Err (DM_DecodeCustomSection (Cust_DecodeName (Name_DecodeByteVector (BV_ReadElements UnexpectedEof)))).
Proof. vm_compute. reflexivity. Qed.
(** tests/error_types.rs:3016 *)
Example err_malformed_data_bitfield_decode_error : decoded fx_malformed_data_bitfield_decode_error =
  Err (DM_DecodeDataSection (DataSec_DecodeList (ParseElement 0%N (Dat_DecodeBitfield U32_RepresentationTooLong)))).
Proof. vm_compute. reflexivity. Qed.
(** tests/error_types.rs:2136 *)
Example err_malformed_data_count_datas_len_mismatch : decoded fx_malformed_data_count_datas_len_mismatch =
  Err (DM_DataCountDatasLenMismatch 0 1%N).
Proof. vm_compute. reflexivity. Qed.
(** tests/error_types.rs:3114 *)
Example err_malformed_data_count_decode_error : decoded fx_malformed_data_count_decode_error =
  Err (DM_DecodeDatacountSection (DC_DecodeDataSegmentCount U32_RepresentationTooLong)).
Proof. vm_compute. reflexivity. Qed.
(** tests/error_types.rs:2115 *)
Example err_malformed_data_count_mismatch : decoded fx_malformed_data_count_mismatch =
  Err (DM_DataCountMismatch 0 1%N).
Proof. vm_compute. reflexivity. Qed.
(** tests/error_types.rs:1025 *)
Example err_malformed_data_drop_dataidx_overlong : decoded fx_malformed_data_drop_dataidx_overlong =
  Err (DM_DecodeCodeSection (CodeSec_DecodeList (ParseElement 0%N (Code_DecodeFunctionBody (Expr_ParseInstruction (PE_Memory (Mem_DecodeDataIdx (DataIdxE U32_RepresentationTooLong)))))))).
Proof. vm_compute. reflexivity. Qed.
(** tests/error_types.rs:2157 *)
Example err_malformed_data_index_without_data_count : decoded fx_malformed_data_index_without_data_count =
  Err DM_DataIndexWithoutDataCount.
Proof. vm_compute. reflexivity. Qed.
(** tests/error_types.rs:2176 *)
Example err_malformed_data_index_without_data_count_nested_controls : decoded fx_malformed_data_index_without_data_count_nested_controls =
  Err DM_DataIndexWithoutDataCount.
Proof. vm_compute. reflexivity. Qed.
(** tests/error_types.rs:3088 *)
Example err_malformed_data_init_vector_truncated : decoded fx_malformed_data_init_vector_truncated =
  Err (DM_DecodeDataSection (DataSec_DecodeList (ParseElement 0%N (Dat_DecodeInitVector (BV_ReadElements UnexpectedEof))))).
Proof. vm_compute. reflexivity. Qed.
(** tests/error_types.rs:3039 *)
Example err_malformed_data_invalid_bitfield : decoded fx_malformed_data_invalid_bitfield =
  Err (DM_DecodeDataSection (DataSec_DecodeList (ParseElement 0%N (Dat_InvalidBitfield 3%N)))).
Proof. vm_compute. reflexivity. Qed.
(** tests/error_types.rs:3062 *)
Example err_malformed_data_offset_expr_missing : decoded fx_malformed_data_offset_expr_missing =
  Err (DM_DecodeDataSection (DataSec_DecodeList (ParseElement 0%N (Dat_DecodeOffsetExpr (Expr_ParseInstruction (PE_ReadOpcode UnexpectedEof)))))).
Proof. vm_compute. reflexivity. Qed.
(** tests/error_types.rs:946 *)
Example err_malformed_data_section_memidx_overlong : decoded fx_malformed_data_section_memidx_overlong =
  Err (DM_DecodeDataSection (DataSec_DecodeList (ParseElement 0%N (Dat_DecodeMemIdx (MemIdxE U32_RepresentationTooLong))))).
Proof. vm_compute. reflexivity. Qed.
(** tests/error_types.rs:2057 *)
Example err_malformed_duplicate_type_section : decoded fx_malformed_duplicate_type_section =
  Err (DM_DuplicateSection SK_Type).
Proof. vm_compute. reflexivity. Qed.
(** tests/error_types.rs:998 *)
Example err_malformed_elem_drop_elemidx_overlong : decoded fx_malformed_elem_drop_elemidx_overlong =
  Err (DM_DecodeCodeSection (CodeSec_DecodeList (ParseElement 0%N (Code_DecodeFunctionBody (Expr_ParseInstruction (PE_Table (Tab_ElemIdx (ElemIdxE U32_RepresentationTooLong)))))))).
Proof. vm_compute. reflexivity. Qed.
(** tests/error_types.rs:2773 *)
Example err_malformed_element_bitfield_decode_error : decoded fx_malformed_element_bitfield_decode_error =
  Err (DM_DecodeElementSection (ElemSec_DecodeList (ParseElement 0%N (El_DecodeBitfield U32_RepresentationTooLong)))).
Proof. vm_compute. reflexivity. Qed.
(** tests/error_types.rs:2842 *)
Example err_malformed_element_elemkind_invalid : decoded fx_malformed_element_elemkind_invalid =
  Err (DM_DecodeElementSection (ElemSec_DecodeList (ParseElement 0%N (El_DecodeElementKind (EK_InvalidElemKind x01))))).
Proof. vm_compute. reflexivity. Qed.
(** tests/error_types.rs:2865 *)
Example err_malformed_element_elemkind_io : decoded fx_malformed_element_elemkind_io =
  Err (DM_DecodeElementSection (ElemSec_DecodeList (ParseElement 0%N (El_DecodeElementKind (EK_Io UnexpectedEof))))).
Proof. vm_compute. reflexivity. Qed.
(** tests/error_types.rs:2990 *)
Example err_malformed_element_expression_missing_opcode : decoded fx_malformed_element_expression_missing_opcode =
  Err (DM_DecodeElementSection (ElemSec_DecodeList (ParseElement 0%N (El_DecodeElementExpression (Expr_ParseInstruction (PE_ReadOpcode UnexpectedEof)))))).
Proof. vm_compute. reflexivity. Qed.
(** tests/error_types.rs:2939 *)
Example err_malformed_element_funcidx_vector_overlong : decoded fx_malformed_element_funcidx_vector_overlong =
  Err (DM_DecodeElementSection (ElemSec_DecodeList (ParseElement 0%N (El_DecodeFuncIdxVector (ParseElement 0%N (FuncIdxE U32_TooLarge)))))).
Proof. vm_compute. reflexivity. Qed.
(** tests/error_types.rs:2914 *)
Example err_malformed_element_init_decode_length : decoded fx_malformed_element_init_decode_length =
  Err (DM_DecodeElementSection (ElemSec_DecodeList (ParseElement 0%N (El_DecodeInit (DecodeLength U32_RepresentationTooLong))))).
Proof. vm_compute. reflexivity. Qed.
(** tests/error_types.rs:2793 *)
Example err_malformed_element_invalid_bitfield : decoded fx_malformed_element_invalid_bitfield =
  Err (DM_DecodeElementSection (ElemSec_DecodeList (ParseElement 0%N (El_InvalidBitfield 9%N)))).
Proof. vm_compute. reflexivity. Qed.
(** tests/error_types.rs:2816 *)
Example err_malformed_element_offset_expr_missing : decoded fx_malformed_element_offset_expr_missing =
  Err (DM_DecodeElementSection (ElemSec_DecodeList (ParseElement 0%N (El_DecodeOffsetExpression (Expr_ParseInstruction (PE_ReadOpcode UnexpectedEof)))))).
Proof. vm_compute. reflexivity. Qed.
(** tests/error_types.rs:2888 *)
Example err_malformed_element_reftype_invalid : decoded fx_malformed_element_reftype_invalid =
  Err (DM_DecodeElementSection (ElemSec_DecodeList (ParseElement 0%N (El_DecodeReferenceType (RT_InvalidMarkerByte (AHT_InvalidMarkerByte (InvalidAbsHeapTypeMarker x00))))))).
Proof. vm_compute. reflexivity. Qed.
(** tests/error_types.rs:2966 *)
Example err_malformed_element_tableidx_overlong : decoded fx_malformed_element_tableidx_overlong =
  Err (DM_DecodeElementSection (ElemSec_DecodeList (ParseElement 0%N (El_DecodeTableIdx (TableIdxE U32_TooLarge))))).
Proof. vm_compute. reflexivity. Qed.
(** tests/error_types.rs:2478 *)
Example err_malformed_export_descriptor_missing_byte : decoded fx_malformed_export_descriptor_missing_byte =
  Err (DM_DecodeExportSection (ExportSec_DecodeList (ParseElement 0%N (Exp_ReadDescriptorMarkerByte UnexpectedEof)))).
Proof. vm_compute. reflexivity. Qed.
(** tests/error_types.rs:2501 *)
Example err_malformed_export_index_decode_error : decoded fx_malformed_export_index_decode_error =
  Err (DM_DecodeExportSection (ExportSec_DecodeList (ParseElement 0%N (Exp_DecodeIndex U32_TooLarge)))).
Proof. vm_compute. reflexivity. Qed.
(** tests/error_types.rs:2527 *)
Example err_malformed_export_invalid_descriptor : decoded fx_malformed_export_invalid_descriptor =
  Err (DM_DecodeExportSection (ExportSec_DecodeList (ParseElement 0%N (Exp_InvalidDescriptorMarkerByte (InvalidExportDescMarker xff))))).
Proof. vm_compute. reflexivity. Qed.
(** tests/error_types.rs:2453 *)
Example err_malformed_export_name_decode_error : decoded fx_malformed_export_name_decode_error =
  Err (DM_DecodeExportSection (ExportSec_DecodeList (ParseElement 0%N (Exp_DecodeName (Name_DecodeByteVector (BV_DecodeLength U32_RepresentationTooLong)))))).
Proof. vm_compute. reflexivity. Qed.
(** tests/error_types.rs:2751 *)
Example err_malformed_expression_unexpected_else : decoded fx_malformed_expression_unexpected_else =
  Err (DM_DecodeCodeSection (CodeSec_DecodeList (ParseElement 0%N (Code_DecodeFunctionBody Expr_UnexpectedElse)))).
Proof. vm_compute. reflexivity. Qed.
(** tests/error_types.rs:501 *)
Example err_malformed_f32_const_truncated : decoded fx_malformed_f32_const_truncated =
  Err (DM_DecodeCodeSection (CodeSec_DecodeList (ParseElement 0%N (Code_DecodeFunctionBody (Expr_ParseInstruction (PE_Numeric (Num_DecodeF32 (F32_ReadPayload UnexpectedEof)))))))).
Proof. vm_compute. reflexivity. Qed.
(** tests/error_types.rs:583 *)
Example err_malformed_fc_invalid_marker : decoded fx_malformed_fc_invalid_marker =
  Err (DM_DecodeCodeSection (CodeSec_DecodeList (ParseElement 0%N (Code_DecodeFunctionBody (Expr_ParseInstruction (PE_InvalidMarkerByteAfterFC 255%N)))))).
Proof. vm_compute. reflexivity. Qed.
(** tests/error_types.rs:890 *)
Example err_malformed_function_call_funcidx_overlong : decoded fx_malformed_function_call_funcidx_overlong =
  Err (DM_DecodeCodeSection (CodeSec_DecodeList (ParseElement 0%N (Code_DecodeFunctionBody (Expr_ParseInstruction (PE_Control (Ctl_FuncIdx (FuncIdxE U32_RepresentationTooLong)))))))).
Proof. vm_compute. reflexivity. Qed.
(** tests/error_types.rs:18 *)
Example err_malformed_function_section_typeidx_overlong : decoded fx_malformed_function_section_typeidx_overlong =
  Err (DM_DecodeFunctionSection (FuncSec_DecodeList (ParseElement 0%N (TypeIdxE U32_RepresentationTooLong)))).
Proof. vm_compute. reflexivity. Qed.
(** tests/error_types.rs:971 *)
Example err_malformed_global_get_globalidx_overlong : decoded fx_malformed_global_get_globalidx_overlong =
  Err (DM_DecodeCodeSection (CodeSec_DecodeList (ParseElement 0%N (Code_DecodeFunctionBody (Expr_ParseInstruction (PE_Variable (Var_GlobalIdx (GlobalIdxE U32_RepresentationTooLong)))))))).
Proof. vm_compute. reflexivity. Qed.
(** tests/error_types.rs:3134 *)
Example err_malformed_global_section_init_missing_expr : decoded fx_malformed_global_section_init_missing_expr =
  Err (DM_DecodeGlobalSection (GlobalSec_DecodeList (ParseElement 0%N (Glob_DecodeInit (Expr_ParseInstruction (PE_ReadOpcode UnexpectedEof)))))).
Proof. vm_compute. reflexivity. Qed.
(** tests/error_types.rs:1964 *)
Example err_malformed_global_section_invalid_mutability : decoded fx_malformed_global_section_invalid_mutability =
  Err (DM_DecodeGlobalSection (GlobalSec_DecodeList (ParseElement 0%N (Glob_DecodeGlobalType (GT_InvalidMutability (InvalidMutabilityByte x02)))))).
Proof. vm_compute. reflexivity. Qed.
(** tests/error_types.rs:1910 *)
Example err_malformed_global_section_invalid_valtype : decoded fx_malformed_global_section_invalid_valtype =
  Err (DM_DecodeGlobalSection (GlobalSec_DecodeList (ParseElement 0%N (Glob_DecodeGlobalType (GT_DecodeValueType (VTE_DecodeRefType (RT_InvalidMarkerByte (AHT_InvalidMarkerByte (InvalidAbsHeapTypeMarker xff))))))))).
Proof. vm_compute. reflexivity. Qed.
(** tests/error_types.rs:1939 *)
Example err_malformed_global_section_missing_mutability : decoded fx_malformed_global_section_missing_mutability =
  Err (DM_DecodeGlobalSection (GlobalSec_DecodeList (ParseElement 0%N (Glob_DecodeGlobalType (GT_DecodeMutability UnexpectedEof))))).
Proof. vm_compute. reflexivity. Qed.
(** tests/error_types.rs:444 *)
Example err_malformed_global_set_truncated : decoded fx_malformed_global_set_truncated =
  Err (DM_DecodeCodeSection (CodeSec_DecodeList (ParseElement 0%N (Code_DecodeFunctionBody (Expr_ParseInstruction (PE_Variable (Var_GlobalIdx (GlobalIdxE (U32_Io UnexpectedEof))))))))).
Proof. vm_compute. reflexivity. Qed.
(** tests/error_types.rs:92 *)
Example err_malformed_i32_const_representation_too_long : decoded fx_malformed_i32_const_representation_too_long =
  Err (DM_DecodeCodeSection (CodeSec_DecodeList (ParseElement 0%N (Code_DecodeFunctionBody (Expr_ParseInstruction (PE_Numeric (Num_DecodeI32 I32_RepresentationTooLong))))))).
Proof. vm_compute. reflexivity. Qed.
(** tests/error_types.rs:64 *)
Example err_malformed_i32_const_too_large : decoded fx_malformed_i32_const_too_large =
  Err (DM_DecodeCodeSection (CodeSec_DecodeList (ParseElement 0%N (Code_DecodeFunctionBody (Expr_ParseInstruction (PE_Numeric (Num_DecodeI32 I32_TooLarge))))))).
Proof. vm_compute. reflexivity. Qed.
(** tests/error_types.rs:119 *)
Example err_malformed_i32_const_truncated : decoded fx_malformed_i32_const_truncated =
  Err (DM_DecodeCodeSection (CodeSec_DecodeList (ParseElement 0%N (Code_DecodeFunctionBody (Expr_ParseInstruction (PE_Numeric (Num_DecodeI32 (I32_Io UnexpectedEof)))))))).
Proof. vm_compute. reflexivity. Qed.
(** tests/error_types.rs:1190 *)
Example err_malformed_i32_load_memarg_truncated_offset : decoded fx_malformed_i32_load_memarg_truncated_offset =
  Err (DM_DecodeCodeSection (CodeSec_DecodeList (ParseElement 0%N (Code_DecodeFunctionBody (Expr_ParseInstruction (PE_Memory (Mem_DecodeMemarg (MA_Offset (U64_Io UnexpectedEof))))))))).
Proof. vm_compute. reflexivity. Qed.
(** tests/error_types.rs:180 *)
Example err_malformed_i64_const_incorrect_sign_extension : decoded fx_malformed_i64_const_incorrect_sign_extension =
  Err (DM_DecodeCodeSection (CodeSec_DecodeList (ParseElement 0%N (Code_DecodeFunctionBody (Expr_ParseInstruction (PE_Numeric (Num_DecodeI64 I64_IncorrectSignExtension))))))).
Proof. vm_compute. reflexivity. Qed.
(** tests/error_types.rs:152 *)
Example err_malformed_i64_const_representation_too_long : decoded fx_malformed_i64_const_representation_too_long =
  Err (DM_DecodeCodeSection (CodeSec_DecodeList (ParseElement 0%N (Code_DecodeFunctionBody (Expr_ParseInstruction (PE_Numeric (Num_DecodeI64 I64_RepresentationTooLong))))))).
Proof. vm_compute. reflexivity. Qed.
(** tests/error_types.rs:207 *)
Example err_malformed_i64_const_truncated : decoded fx_malformed_i64_const_truncated =
  Err (DM_DecodeCodeSection (CodeSec_DecodeList (ParseElement 0%N (Code_DecodeFunctionBody (Expr_ParseInstruction (PE_Numeric (Num_DecodeI64 (I64_Io UnexpectedEof)))))))).
Proof. vm_compute. reflexivity. Qed.
(** tests/error_types.rs:761 *)
Example err_malformed_if_unexpected_else : decoded fx_malformed_if_unexpected_else =
  Err (DM_DecodeCodeSection (CodeSec_DecodeList (ParseElement 0%N (Code_DecodeFunctionBody (Expr_ParseInstruction (PE_Control Ctl_UnexpectedElse)))))).
Proof. vm_compute. reflexivity. Qed.
(** tests/error_types.rs:2300 *)
Example err_malformed_import_descriptor_missing_byte : decoded fx_malformed_import_descriptor_missing_byte =
  Err (DM_DecodeImportSection (ImportSec_DecodeList (ParseElement 0%N (Imp_DecodeExternType (Ext_ReadMarkerByte UnexpectedEof))))).
Proof. vm_compute. reflexivity. Qed.
(** tests/error_types.rs:2275 *)
Example err_malformed_import_entity_name_utf8_error : decoded fx_malformed_import_entity_name_utf8_error =
  Err (DM_DecodeImportSection (ImportSec_DecodeList (ParseElement 0%N (Imp_DecodeItemName (Name_Utf8 [xff]))))).
Proof. vm_compute. reflexivity. Qed.
(** tests/error_types.rs:2427 *)
Example err_malformed_import_global_invalid_mutability : decoded fx_malformed_import_global_invalid_mutability =
  Err (DM_DecodeImportSection (ImportSec_DecodeList (ParseElement 0%N (Imp_DecodeExternType (Ext_DecodeGlobalType (GT_InvalidMutability (InvalidMutabilityByte x02))))))).
Proof. vm_compute. reflexivity. Qed.
(** tests/error_types.rs:2324 *)
Example err_malformed_import_invalid_descriptor : decoded fx_malformed_import_invalid_descriptor =
  Err (DM_DecodeImportSection (ImportSec_DecodeList (ParseElement 0%N (Imp_DecodeExternType (Ext_InvalidMarkerByte xff))))).
Proof. vm_compute. reflexivity. Qed.
(** tests/error_types.rs:2401 *)
Example err_malformed_import_memory_invalid_limits : decoded fx_malformed_import_memory_invalid_limits =
  Err (DM_DecodeImportSection (ImportSec_DecodeList (ParseElement 0%N (Imp_DecodeExternType (Ext_DecodeMemoryType (MemTypeE (Lim_UnexpectedFlagByte x02))))))).
Proof. vm_compute. reflexivity. Qed.
(** tests/error_types.rs:2249 *)
Example err_malformed_import_module_name_decode_error : decoded fx_malformed_import_module_name_decode_error =
  Err (DM_DecodeImportSection (ImportSec_DecodeList (ParseElement 0%N (Imp_DecodeModuleName (Name_DecodeByteVector (BV_DecodeLength (U32_Io UnexpectedEof))))))).
Proof. vm_compute. reflexivity. Qed.
(** tests/error_types.rs:2373 *)
Example err_malformed_import_table_invalid_reftype : decoded fx_malformed_import_table_invalid_reftype =
  Err (DM_DecodeImportSection (ImportSec_DecodeList (ParseElement 0%N (Imp_DecodeExternType (Ext_DecodeTableType (TT_DecodeRefType (RT_InvalidMarkerByte (AHT_InvalidMarkerByte (InvalidAbsHeapTypeMarker x00))))))))).
Proof. vm_compute. reflexivity. Qed.
(** tests/error_types.rs:2348 *)
Example err_malformed_import_typeidx_overlong : decoded fx_malformed_import_typeidx_overlong =
  Err (DM_DecodeImportSection (ImportSec_DecodeList (ParseElement 0%N (Imp_DecodeExternType (Ext_DecodeTypeIndex (TypeIdxE U32_TooLarge)))))).
Proof. vm_compute. reflexivity. Qed.
(** tests/error_types.rs:557 *)
Example err_malformed_invalid_opcode_ff : decoded fx_malformed_invalid_opcode_ff =
  Err (DM_DecodeCodeSection (CodeSec_DecodeList (ParseElement 0%N (Code_DecodeFunctionBody (Expr_ParseInstruction (PE_InvalidOpcode xff)))))).
Proof. vm_compute. reflexivity. Qed.
(** tests/error_types.rs:2022 *)
Example err_malformed_invalid_section_id : decoded fx_malformed_invalid_section_id =
  Err (DM_DecodeSectionHeader (Hdr_InvalidSectionId (InvalidSectionId x0e))).
Proof. vm_compute. reflexivity. Qed.
(** tests/error_types.rs:1052 *)
Example err_malformed_local_get_localidx_overlong : decoded fx_malformed_local_get_localidx_overlong =
  Err (DM_DecodeCodeSection (CodeSec_DecodeList (ParseElement 0%N (Code_DecodeFunctionBody (Expr_ParseInstruction (PE_Variable (Var_LocalIdx (LocalIdxE U32_RepresentationTooLong)))))))).
Proof. vm_compute. reflexivity. Qed.
(** tests/error_types.rs:811 *)
Example err_malformed_loop_unexpected_else : decoded fx_malformed_loop_unexpected_else =
  Err (DM_DecodeCodeSection (CodeSec_DecodeList (ParseElement 0%N (Code_DecodeFunctionBody (Expr_ParseInstruction (PE_Control Ctl_UnexpectedElse)))))).
Proof. vm_compute. reflexivity. Qed.
(** tests/error_types.rs:1449 *)
Example err_malformed_memarg_align_missing : decoded fx_malformed_memarg_align_missing =
  Err (DM_DecodeCodeSection (CodeSec_DecodeList (ParseElement 0%N (Code_DecodeFunctionBody (Expr_ParseInstruction (PE_Memory (Mem_DecodeMemarg (MA_Align (U32_Io UnexpectedEof))))))))).
Proof. vm_compute. reflexivity. Qed.
(** tests/error_types.rs:1478 *)
Example err_malformed_memarg_invalid_flags_bit : decoded fx_malformed_memarg_invalid_flags_bit =
  Err (DM_DecodeCodeSection (CodeSec_DecodeList (ParseElement 0%N (Code_DecodeFunctionBody (Expr_ParseInstruction (PE_Memory (Mem_DecodeMemarg (MA_InvalidFlagsBit 128%N)))))))).
Proof. vm_compute. reflexivity. Qed.
(** tests/error_types.rs:1840 *)
Example err_malformed_memory_section_invalid_limits_flag : decoded fx_malformed_memory_section_invalid_limits_flag =
  Err (DM_DecodeMemorySection (MemSec_DecodeList (ParseElement 0%N (MemTypeE (Lim_UnexpectedFlagByte x02))))).
Proof. vm_compute. reflexivity. Qed.
(** tests/error_types.rs:1816 *)
Example err_malformed_memory_section_missing_limits : decoded fx_malformed_memory_section_missing_limits =
  Err (DM_DecodeMemorySection (MemSec_DecodeList (ParseElement 0%N (MemTypeE (Lim_ReadFlagByte UnexpectedEof))))).
Proof. vm_compute. reflexivity. Qed.
(** tests/error_types.rs:1886 *)
Example err_malformed_memory_section_missing_max : decoded fx_malformed_memory_section_missing_max =
  Err (DM_DecodeMemorySection (MemSec_DecodeList (ParseElement 0%N (MemTypeE (Lim_ReadMaxLimit (U64_Io UnexpectedEof)))))).
Proof. vm_compute. reflexivity. Qed.
(** tests/error_types.rs:1862 *)
Example err_malformed_memory_section_missing_min : decoded fx_malformed_memory_section_missing_min =
  Err (DM_DecodeMemorySection (MemSec_DecodeList (ParseElement 0%N (MemTypeE (Lim_ReadMinLimit (U64_Io UnexpectedEof)))))).
Proof. vm_compute. reflexivity. Qed.
(** tests/error_types.rs:1282 *)
Example err_malformed_numeric_f64_const_truncated : decoded fx_malformed_numeric_f64_const_truncated =
  Err (DM_DecodeCodeSection (CodeSec_DecodeList (ParseElement 0%N (Code_DecodeFunctionBody (Expr_ParseInstruction (PE_Numeric (Num_DecodeF64 (F64_ReadPayload UnexpectedEof)))))))).
Proof. vm_compute. reflexivity. Qed.
(** tests/error_types.rs:1221 *)
Example err_malformed_numeric_fc_opcode_truncated : decoded fx_malformed_numeric_fc_opcode_truncated =
  Err (DM_DecodeCodeSection (CodeSec_DecodeList (ParseElement 0%N (Code_DecodeFunctionBody (Expr_ParseInstruction (PE_Numeric (Num_ReadOpcode (U32_Io UnexpectedEof)))))))).
Proof. vm_compute. reflexivity. Qed.
(** tests/error_types.rs:1988 *)
Example err_malformed_preamble_truncated : decoded fx_malformed_preamble_truncated =
  Err (DM_ParsePreamble (Pre_Io UnexpectedEof)).
Proof. vm_compute. reflexivity. Qed.
(** tests/error_types.rs:2005 *)
Example err_malformed_preamble_unexpected : decoded fx_malformed_preamble_unexpected =
  Err (DM_ParsePreamble (Pre_Unexpected [x00; x61; x73; x6d; x02; x00; x00; x00])).
Proof. vm_compute. reflexivity. Qed.
(** tests/error_types.rs:862 *)
Example err_malformed_ref_func_overlong : decoded fx_malformed_ref_func_overlong =
  Err (DM_DecodeCodeSection (CodeSec_DecodeList (ParseElement 0%N (Code_DecodeFunctionBody (Expr_ParseInstruction (PE_Reference (Ref_FuncIdx (FuncIdxE U32_RepresentationTooLong)))))))).
Proof. vm_compute. reflexivity. Qed.
(** tests/error_types.rs:294 *)
Example err_malformed_ref_null_invalid_marker : decoded fx_malformed_ref_null_invalid_marker =
  Err (DM_DecodeCodeSection (CodeSec_DecodeList (ParseElement 0%N (Code_DecodeFunctionBody (Expr_ParseInstruction (PE_Reference (Ref_HeapType (HT_NegativeTypeIndex (-1)%Z)))))))).
Proof. vm_compute. reflexivity. Qed.
(** tests/error_types.rs:323 *)
Example err_malformed_ref_test_invalid_subopcode : decoded fx_malformed_ref_test_invalid_subopcode =
  Err (DM_DecodeCodeSection (CodeSec_DecodeList (ParseElement 0%N (Code_DecodeFunctionBody (Expr_ParseInstruction (PE_InvalidMarkerByteAfterFB 31%N)))))).
Proof. vm_compute. reflexivity. Qed.
(** tests/error_types.rs:377 *)
Example err_malformed_ref_test_negative_heaptype : decoded fx_malformed_ref_test_negative_heaptype =
  Err (DM_DecodeCodeSection (CodeSec_DecodeList (ParseElement 0%N (Code_DecodeFunctionBody (Expr_ParseInstruction (PE_Reference (Ref_HeapType (HT_NegativeTypeIndex (-1)%Z)))))))).
Proof. vm_compute. reflexivity. Qed.
(** tests/error_types.rs:41 *)
Example err_malformed_section_header_size_truncated : decoded fx_malformed_section_header_size_truncated =
  Err (DM_DecodeSectionHeader (Hdr_DecodeSectionSize (U32_Io UnexpectedEof))).
Proof. vm_compute. reflexivity. Qed.
(** tests/error_types.rs:2039 *)
Example err_malformed_section_out_of_order : decoded fx_malformed_section_out_of_order =
  Err (DM_SectionOutOfOrder SK_Type SK_Memory).
Proof. vm_compute. reflexivity. Qed.
(** tests/error_types.rs:1129 *)
Example err_malformed_section_size_representation_too_long : decoded fx_malformed_section_size_representation_too_long =
  Err (DM_DecodeSectionHeader (Hdr_DecodeSectionSize U32_RepresentationTooLong)).
Proof. vm_compute. reflexivity. Qed.
(** tests/error_types.rs:406 *)
Example err_malformed_select_invalid_valtype : decoded fx_malformed_select_invalid_valtype =
  Err (DM_DecodeCodeSection (CodeSec_DecodeList (ParseElement 0%N (Code_DecodeFunctionBody (Expr_ParseInstruction (PE_Parametric (Par_DecodeList (ParseElement 0%N (VTE_DecodeRefType (RT_InvalidMarkerByte (AHT_InvalidMarkerByte (InvalidAbsHeapTypeMarker xff)))))))))))).
Proof. vm_compute. reflexivity. Qed.
(** tests/error_types.rs:1151 *)
Example err_malformed_select_type_vector_invalid_valtype : decoded fx_malformed_select_type_vector_invalid_valtype =
  Err (DM_DecodeCodeSection (CodeSec_DecodeList (ParseElement 0%N (Code_DecodeFunctionBody (Expr_ParseInstruction (PE_Parametric (Par_DecodeList (ParseElement 0%N (VTE_DecodeRefType (RT_InvalidMarkerByte (AHT_InvalidMarkerByte (InvalidAbsHeapTypeMarker xff)))))))))))).
Proof. vm_compute. reflexivity. Qed.
(** tests/error_types.rs:2550 *)
Example err_malformed_start_section_funcidx_overlong : decoded fx_malformed_start_section_funcidx_overlong =
  Err (DM_DecodeStartSection (StartSecE (FuncIdxE U32_TooLarge))).
Proof. vm_compute. reflexivity. Qed.
(** tests/error_types.rs:473 *)
Example err_malformed_table_get_tableidx_overlong : decoded fx_malformed_table_get_tableidx_overlong =
  Err (DM_DecodeCodeSection (CodeSec_DecodeList (ParseElement 0%N (Code_DecodeFunctionBody (Expr_ParseInstruction (PE_Table (Tab_TableIdx (TableIdxE U32_RepresentationTooLong)))))))).
Proof. vm_compute. reflexivity. Qed.
(** tests/error_types.rs:1741 *)
Example err_malformed_table_section_invalid_reftype : decoded fx_malformed_table_section_invalid_reftype =
  Err (DM_DecodeTableSection (TableSec_DecodeList (ParseElement 0%N (Tbl_DecodeTableType (TT_DecodeRefType (RT_InvalidMarkerByte (AHT_InvalidMarkerByte (InvalidAbsHeapTypeMarker x00)))))))).
Proof. vm_compute. reflexivity. Qed.
(** tests/error_types.rs:1793 *)
Example err_malformed_table_section_limits_invalid_flag : decoded fx_malformed_table_section_limits_invalid_flag =
  Err (DM_DecodeTableSection (TableSec_DecodeList (ParseElement 0%N (Tbl_DecodeTableType (TT_DecodeLimits (Lim_UnexpectedFlagByte x02)))))).
Proof. vm_compute. reflexivity. Qed.
(** tests/error_types.rs:1769 *)
Example err_malformed_table_section_reftype_truncated : decoded fx_malformed_table_section_reftype_truncated =
  Err (DM_DecodeTableSection (TableSec_DecodeList (ParseElement 0%N (Tbl_Io UnexpectedEof)))).
Proof. vm_compute. reflexivity. Qed.
(** tests/error_types.rs:3160 *)
Example err_malformed_tag_section_invalid_marker : decoded fx_malformed_tag_section_invalid_marker =
  Err (DM_DecodeTagSection (TagSec_DecodeList (ParseElement 0%N (Tag_InvalidMarkerByte x01)))).
Proof. vm_compute. reflexivity. Qed.
(** tests/error_types.rs:643 *)
Example err_malformed_try_table_invalid_catch_marker : decoded fx_malformed_try_table_invalid_catch_marker =
  Err (DM_DecodeCodeSection (CodeSec_DecodeList (ParseElement 0%N (Code_DecodeFunctionBody (Expr_ParseInstruction (PE_Control (Ctl_DecodeCatchListError (ParseElement 0%N (Catch_InvalidMarkerByte x04))))))))).
Proof. vm_compute. reflexivity. Qed.
(** tests/error_types.rs:836 *)
Example err_malformed_try_table_unexpected_else : decoded fx_malformed_try_table_unexpected_else =
  Err (DM_DecodeCodeSection (CodeSec_DecodeList (ParseElement 0%N (Code_DecodeFunctionBody (Expr_ParseInstruction (PE_Control Ctl_UnexpectedElse)))))).
Proof. vm_compute. reflexivity. Qed.
(** tests/error_types.rs:1642 *)
Example err_malformed_type_section_comptype_invalid_marker : decoded fx_malformed_type_section_comptype_invalid_marker =
  Err (DM_DecodeTypeSection (TypeSec_DecodeList (ParseElement 0%N (Rec_DecodeSubtype (SubT_DecodeCompType (CT_InvalidMarkerByte x00)))))).
Proof. vm_compute. reflexivity. Qed.
(** tests/error_types.rs:1617 *)
Example err_malformed_type_section_comptype_marker_missing : decoded fx_malformed_type_section_comptype_marker_missing =
  Err (DM_DecodeTypeSection (TypeSec_DecodeList (ParseElement 0%N (Rec_Io UnexpectedEof)))).
Proof. vm_compute. reflexivity. Qed.
(** tests/error_types.rs:1106 *)
Example err_malformed_type_section_length_too_large : decoded fx_malformed_type_section_length_too_large =
  Err (DM_DecodeTypeSection (TypeSec_DecodeList (DecodeLength U32_TooLarge))).
Proof. vm_compute. reflexivity. Qed.
(** tests/error_types.rs:1670 *)
Example err_malformed_type_section_param_invalid_valtype : decoded fx_malformed_type_section_param_invalid_valtype =
  Err (DM_DecodeTypeSection (TypeSec_DecodeList (ParseElement 0%N (Rec_DecodeSubtype (SubT_DecodeCompType (CT_DecodeFuncParameters (RTE_DecodeList (ParseElement 0%N (VTE_DecodeRefType (RT_InvalidMarkerByte (AHT_InvalidMarkerByte (InvalidAbsHeapTypeMarker xff)))))))))))).
Proof. vm_compute. reflexivity. Qed.
(** tests/error_types.rs:1709 *)
Example err_malformed_type_section_result_valtype_truncated : decoded fx_malformed_type_section_result_valtype_truncated =
  Err (DM_DecodeTypeSection (TypeSec_DecodeList (ParseElement 0%N (Rec_DecodeSubtype (SubT_DecodeCompType (CT_DecodeFuncResults (RTE_DecodeList (ParseElement 0%N (VTE_Io UnexpectedEof))))))))).
Proof. vm_compute. reflexivity. Qed.
(** tests/error_types.rs:2072 *)
Example err_malformed_type_section_size_mismatch : decoded fx_malformed_type_section_size_mismatch =
  Err (DM_SectionSizeMismatch SK_Type 5%N 1%N).
Proof. vm_compute. reflexivity. Qed.
(** tests/error_types.rs:1397 *)
Example err_malformed_vector_immediates_truncated : decoded fx_malformed_vector_immediates_truncated =
  Err (DM_DecodeCodeSection (CodeSec_DecodeList (ParseElement 0%N (Code_DecodeFunctionBody (Expr_ParseInstruction (PE_Vector (Vec_ReadImmediateBytes UnexpectedEof))))))).
Proof. vm_compute. reflexivity. Qed.
(** tests/error_types.rs:530 *)
Example err_malformed_vector_invalid_opcode : decoded fx_malformed_vector_invalid_opcode =
  Err (DM_DecodeCodeSection (CodeSec_DecodeList (ParseElement 0%N (Code_DecodeFunctionBody (Expr_ParseInstruction (PE_Vector (Vec_InvalidOpcode 65535%N))))))).
Proof. vm_compute. reflexivity. Qed.
(** tests/error_types.rs:1371 *)
Example err_malformed_vector_laneidx_missing : decoded fx_malformed_vector_laneidx_missing =
  Err (DM_DecodeCodeSection (CodeSec_DecodeList (ParseElement 0%N (Code_DecodeFunctionBody (Expr_ParseInstruction (PE_Vector (Vec_LaneIdx (LaneIdxE UnexpectedEof)))))))).
Proof. vm_compute. reflexivity. Qed.
(** tests/error_types.rs:1343 *)
Example err_malformed_vector_memarg_offset_truncated : decoded fx_malformed_vector_memarg_offset_truncated =
  Err (DM_DecodeCodeSection (CodeSec_DecodeList (ParseElement 0%N (Code_DecodeFunctionBody (Expr_ParseInstruction (PE_Vector (Vec_Memarg (MA_Offset (U64_Io UnexpectedEof))))))))).
Proof. vm_compute. reflexivity. Qed.
(** tests/error_types.rs:1312 *)
Example err_malformed_vector_opcode_truncated : decoded fx_malformed_vector_opcode_truncated =
  Err (DM_DecodeCodeSection (CodeSec_DecodeList (ParseElement 0%N (Code_DecodeFunctionBody (Expr_ParseInstruction (PE_Vector (Vec_ReadOpcode (U32_Io UnexpectedEof)))))))).
Proof. vm_compute. reflexivity. Qed.
(** tests/tests.rs:3475 *)
Example err_overlong_blocktype_s33 : decoded fx_overlong_blocktype_s33 =
  Err (DM_DecodeCodeSection (CodeSec_DecodeList (ParseElement 0%N (Code_DecodeFunctionBody (Expr_ParseInstruction (PE_Control (Ctl_BlockType (BT_DecodeIndex S33_RepresentationTooLong)))))))).
Proof. vm_compute. reflexivity. Qed.

(** tests/tests.rs:2605: every numeric instruction occurs in some function body *)
Example it_decodes_numeric_instructions :
  let m := module_in fx_numeric_instructions in
  decoded fx_numeric_instructions = Ok m /\
  forallb (fun test => existsb test (concat (map f_body (funcs m))))
    [fun i => match i with I_I32Const _ => true | _ => false end
    ; fun i => match i with I_I64Const _ => true | _ => false end
    ; fun i => match i with I_F32Const _ => true | _ => false end
    ; fun i => match i with I_F64Const _ => true | _ => false end
    ; fun i => match i with I_I32Eqz => true | _ => false end
    ; fun i => match i with I_I32Eq => true | _ => false end
    ; fun i => match i with I_I32Ne => true | _ => false end
    ; fun i => match i with I_I32LtS => true | _ => false end
    ; fun i => match i with I_I32LtU => true | _ => false end
    ; fun i => match i with I_I32GtS => true | _ => false end
    ; fun i => match i with I_I32GtU => true | _ => false end
    ; fun i => match i with I_I32LeS => true | _ => false end
    ; fun i => match i with I_I32LeU => true | _ => false end
    ; fun i => match i with I_I32GeS => true | _ => false end
    ; fun i => match i with I_I32GeU => true | _ => false end
    ; fun i => match i with I_I64Eqz => true | _ => false end
    ; fun i => match i with I_I64Eq => true | _ => false end
    ; fun i => match i with I_I64Ne => true | _ => false end
    ; fun i => match i with I_I64LtS => true | _ => false end
    ; fun i => match i with I_I64LtU => true | _ => false end
    ; fun i => match i with I_I64GtS => true | _ => false end
    ; fun i => match i with I_I64GtU => true | _ => false end
    ; fun i => match i with I_I64LeS => true | _ => false end
    ; fun i => match i with I_I64LeU => true | _ => false end
    ; fun i => match i with I_I64GeS => true | _ => false end
    ; fun i => match i with I_I64GeU => true | _ => false end
    ; fun i => match i with I_F32Eq => true | _ => false end
    ; fun i => match i with I_F32Ne => true | _ => false end
    ; fun i => match i with I_F32Lt => true | _ => false end
    ; fun i => match i with I_F32Gt => true | _ => false end
    ; fun i => match i with I_F32Le => true | _ => false end
    ; fun i => match i with I_F32Ge => true | _ => false end
    ; fun i => match i with I_F64Eq => true | _ => false end
    ; fun i => match i with I_F64Ne => true | _ => false end
    ; fun i => match i with I_F64Lt => true | _ => false end
    ; fun i => match i with I_F64Gt => true | _ => false end
    ; fun i => match i with I_F64Le => true | _ => false end
    ; fun i => match i with I_F64Ge => true | _ => false end
    ; fun i => match i with I_I32Clz => true | _ => false end
    ; fun i => match i with I_I32Ctz => true | _ => false end
    ; fun i => match i with I_I32Popcnt => true | _ => false end
    ; fun i => match i with I_I32Add => true | _ => false end
    ; fun i => match i with I_I32Sub => true | _ => false end
    ; fun i => match i with I_I32Mul => true | _ => false end
    ; fun i => match i with I_I32DivS => true | _ => false end
    ; fun i => match i with I_I32DivU => true | _ => false end
    ; fun i => match i with I_I32RemS => true | _ => false end
    ; fun i => match i with I_I32RemU => true | _ => false end
    ; fun i => match i with I_I32And => true | _ => false end
    ; fun i => match i with I_I32Or => true | _ => false end
    ; fun i => match i with I_I32Xor => true | _ => false end
    ; fun i => match i with I_I32Shl => true | _ => false end
    ; fun i => match i with I_I32ShrS => true | _ => false end
    ; fun i => match i with I_I32ShrU => true | _ => false end
    ; fun i => match i with I_I32Rotl => true | _ => false end
    ; fun i => match i with I_I32Rotr => true | _ => false end
    ; fun i => match i with I_I64Clz => true | _ => false end
    ; fun i => match i with I_I64Ctz => true | _ => false end
    ; fun i => match i with I_I64Popcnt => true | _ => false end
    ; fun i => match i with I_I64Add => true | _ => false end
    ; fun i => match i with I_I64Sub => true | _ => false end
    ; fun i => match i with I_I64Mul => true | _ => false end
    ; fun i => match i with I_I64DivS => true | _ => false end
    ; fun i => match i with I_I64DivU => true | _ => false end
    ; fun i => match i with I_I64RemS => true | _ => false end
    ; fun i => match i with I_I64RemU => true | _ => false end
    ; fun i => match i with I_I64And => true | _ => false end
    ; fun i => match i with I_I64Or => true | _ => false end
    ; fun i => match i with I_I64Xor => true | _ => false end
    ; fun i => match i with I_I64Shl => true | _ => false end
    ; fun i => match i with I_I64ShrS => true | _ => false end
    ; fun i => match i with I_I64ShrU => true | _ => false end
    ; fun i => match i with I_I64Rotl => true | _ => false end
    ; fun i => match i with I_I64Rotr => true | _ => false end
    ; fun i => match i with I_F32Abs => true | _ => false end
    ; fun i => match i with I_F32Neg => true | _ => false end
    ; fun i => match i with I_F32Ceil => true | _ => false end
    ; fun i => match i with I_F32Floor => true | _ => false end
    ; fun i => match i with I_F32Trunc => true | _ => false end
    ; fun i => match i with I_F32Nearest => true | _ => false end
    ; fun i => match i with I_F32Sqrt => true | _ => false end
    ; fun i => match i with I_F32Add => true | _ => false end
    ; fun i => match i with I_F32Sub => true | _ => false end
    ; fun i => match i with I_F32Mul => true | _ => false end
    ; fun i => match i with I_F32Div => true | _ => false end
    ; fun i => match i with I_F32Min => true | _ => false end
    ; fun i => match i with I_F32Max => true | _ => false end
    ; fun i => match i with I_F32Copysign => true | _ => false end
    ; fun i => match i with I_F64Abs => true | _ => false end
    ; fun i => match i with I_F64Neg => true | _ => false end
    ; fun i => match i with I_F64Ceil => true | _ => false end
    ; fun i => match i with I_F64Floor => true | _ => false end
    ; fun i => match i with I_F64Trunc => true | _ => false end
    ; fun i => match i with I_F64Nearest => true | _ => false end
    ; fun i => match i with I_F64Sqrt => true | _ => false end
    ; fun i => match i with I_F64Add => true | _ => false end
    ; fun i => match i with I_F64Sub => true | _ => false end
    ; fun i => match i with I_F64Mul => true | _ => false end
    ; fun i => match i with I_F64Div => true | _ => false end
    ; fun i => match i with I_F64Min => true | _ => false end
    ; fun i => match i with I_F64Max => true | _ => false end
    ; fun i => match i with I_F64Copysign => true | _ => false end
    ; fun i => match i with I_I32WrapI64 => true | _ => false end
    ; fun i => match i with I_I32TruncF32S => true | _ => false end
    ; fun i => match i with I_I32TruncF32U => true | _ => false end
    ; fun i => match i with I_I32TruncF64S => true | _ => false end
    ; fun i => match i with I_I32TruncF64U => true | _ => false end
    ; fun i => match i with I_I64ExtendI32S => true | _ => false end
    ; fun i => match i with I_I64ExtendI32U => true | _ => false end
    ; fun i => match i with I_I64TruncF32S => true | _ => false end
    ; fun i => match i with I_I64TruncF32U => true | _ => false end
    ; fun i => match i with I_I64TruncF64S => true | _ => false end
    ; fun i => match i with I_I64TruncF64U => true | _ => false end
    ; fun i => match i with I_F32ConvertI32S => true | _ => false end
    ; fun i => match i with I_F32ConvertI32U => true | _ => false end
    ; fun i => match i with I_F32ConvertI64S => true | _ => false end
    ; fun i => match i with I_F32ConvertI64U => true | _ => false end
    ; fun i => match i with I_F32DemoteF64 => true | _ => false end
    ; fun i => match i with I_F64ConvertI32S => true | _ => false end
    ; fun i => match i with I_F64ConvertI32U => true | _ => false end
    ; fun i => match i with I_F64ConvertI64S => true | _ => false end
    ; fun i => match i with I_F64ConvertI64U => true | _ => false end
    ; fun i => match i with I_F64PromoteF32 => true | _ => false end
    ; fun i => match i with I_I32ReinterpretF32 => true | _ => false end
    ; fun i => match i with I_I64ReinterpretF64 => true | _ => false end
    ; fun i => match i with I_F32ReinterpretI32 => true | _ => false end
    ; fun i => match i with I_F64ReinterpretI64 => true | _ => false end
    ; fun i => match i with I_I32Extend8S => true | _ => false end
    ; fun i => match i with I_I32Extend16S => true | _ => false end
    ; fun i => match i with I_I64Extend8S => true | _ => false end
    ; fun i => match i with I_I64Extend16S => true | _ => false end
    ; fun i => match i with I_I64Extend32S => true | _ => false end
    ; fun i => match i with I_I32TruncSatF32S => true | _ => false end
    ; fun i => match i with I_I32TruncSatF32U => true | _ => false end
    ; fun i => match i with I_I32TruncSatF64S => true | _ => false end
    ; fun i => match i with I_I32TruncSatF64U => true | _ => false end
    ; fun i => match i with I_I64TruncSatF32S => true | _ => false end
    ; fun i => match i with I_I64TruncSatF32U => true | _ => false end
    ; fun i => match i with I_I64TruncSatF64S => true | _ => false end
    ; fun i => match i with I_I64TruncSatF64U => true | _ => false end] = true.
Proof. vm_compute. split; reflexivity. Qed.
