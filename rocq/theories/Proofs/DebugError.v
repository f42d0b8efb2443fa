(** [{err:#?}] determines the error. *)
From Verif Require Import Model.Prelude Model.Io Model.Ast Model.Errors Model.Display Model.Debug Model.DebugError Spec.Debug.
From Verif Require Import Proofs.Pretty Proofs.Debug.
From Coq Require Import Bool Lia String Ascii Strings.Byte.
Local Open Scope string_scope.

#[local] Instance paths : Paths := true.
Section Error.
  Context {T : Texts} (HT : readable T).
  Instance reads_io : Reads debug_io.
  Proof. destruct HT. split; [intros e; apply well_formed_wf; auto|auto]. Qed.
  Instance reads_utf8 : Reads d_from_utf8_error.
  Proof.
    split; [intros a; unfold d_from_utf8_error; wf_all; apply well_formed_wf; apply HT|].
    intros a b E. unfold d_from_utf8_error in E. apply struct_inj in E. apply cons_inj in E as [E _]. apply pair_inj in E. apply rd_inj in E. exact E.
  Qed.
  Instance reads_DecodeU32Error : Reads d_DecodeU32Error. Proof. structure d_DecodeU32Error. Qed.
  Instance reads_DecodeU64Error : Reads d_DecodeU64Error. Proof. structure d_DecodeU64Error. Qed.
  Instance reads_DecodeI32Error : Reads d_DecodeI32Error. Proof. structure d_DecodeI32Error. Qed.
  Instance reads_DecodeI64Error : Reads d_DecodeI64Error. Proof. structure d_DecodeI64Error. Qed.
  Instance reads_DecodeS33Error : Reads d_DecodeS33Error. Proof. structure d_DecodeS33Error. Qed.
  Instance reads_DecodeTypeIdxError : Reads d_DecodeTypeIdxError. Proof. structure d_DecodeTypeIdxError. Qed.
  Instance reads_DecodeFuncIdxError : Reads d_DecodeFuncIdxError. Proof. structure d_DecodeFuncIdxError. Qed.
  Instance reads_DecodeTableIdxError : Reads d_DecodeTableIdxError. Proof. structure d_DecodeTableIdxError. Qed.
  Instance reads_DecodeMemIdxError : Reads d_DecodeMemIdxError. Proof. structure d_DecodeMemIdxError. Qed.
  Instance reads_DecodeGlobalIdxError : Reads d_DecodeGlobalIdxError. Proof. structure d_DecodeGlobalIdxError. Qed.
  Instance reads_DecodeElemIdxError : Reads d_DecodeElemIdxError. Proof. structure d_DecodeElemIdxError. Qed.
  Instance reads_DecodeDataIdxError : Reads d_DecodeDataIdxError. Proof. structure d_DecodeDataIdxError. Qed.
  Instance reads_DecodeLocalIdxError : Reads d_DecodeLocalIdxError. Proof. structure d_DecodeLocalIdxError. Qed.
  Instance reads_DecodeLabelIdxError : Reads d_DecodeLabelIdxError. Proof. structure d_DecodeLabelIdxError. Qed.
  Instance reads_DecodeTagIdxError : Reads d_DecodeTagIdxError. Proof. structure d_DecodeTagIdxError. Qed.
  Instance reads_DecodeFloat32Error : Reads d_DecodeFloat32Error. Proof. structure d_DecodeFloat32Error. Qed.
  Instance reads_DecodeFloat64Error : Reads d_DecodeFloat64Error. Proof. structure d_DecodeFloat64Error. Qed.
  Instance reads_list_error {E} (n : string) (d : E -> dtree) : tokenb n = true -> Reads d -> Reads (d_list_error n d).
  Proof.
    intros Hn HR. split.
    - intros [e|p e]; unfold d_list_error; wf_all. split; [reflexivity|split; [apply tokenb_ok; exact Hn|apply rd_wf]].
    - intros [] [] E0; unfold d_list_error in E0; try clash E0; peel E0.
      + read_back. subst. reflexivity.
      + apply path_inj in F0. read_back. subst. reflexivity.
  Qed.
  Instance reads_DecodeByteVectorError : Reads d_DecodeByteVectorError. Proof. structure d_DecodeByteVectorError. Qed.
  Instance reads_DecodeNameError : Reads d_DecodeNameError. Proof. structure d_DecodeNameError. Qed.
  Instance reads_InvalidAbsHeapTypeMarkerError : Reads d_InvalidAbsHeapTypeMarkerError. Proof. structure d_InvalidAbsHeapTypeMarkerError. Qed.
  Instance reads_DecodeAbsHeapTypeError : Reads d_DecodeAbsHeapTypeError. Proof. structure d_DecodeAbsHeapTypeError. Qed.
  Instance reads_DecodeHeapTypeError : Reads d_DecodeHeapTypeError. Proof. structure d_DecodeHeapTypeError. Qed.
  Instance reads_DecodeRefTypeError : Reads d_DecodeRefTypeError. Proof. structure d_DecodeRefTypeError. Qed.
  Instance reads_DecodeValTypeError : Reads d_DecodeValTypeError. Proof. structure d_DecodeValTypeError. Qed.
  Instance reads_DecodeResultTypeError : Reads d_DecodeResultTypeError. Proof. structure d_DecodeResultTypeError. Qed.
  Instance reads_InvalidMutabilityByteError : Reads d_InvalidMutabilityByteError. Proof. structure d_InvalidMutabilityByteError. Qed.
  Instance reads_DecodeGlobalTypeError : Reads d_DecodeGlobalTypeError. Proof. structure d_DecodeGlobalTypeError. Qed.
  Instance reads_DecodeStorageTypeError : Reads d_DecodeStorageTypeError. Proof. structure d_DecodeStorageTypeError. Qed.
  Instance reads_DecodeFieldTypeError : Reads d_DecodeFieldTypeError. Proof. structure d_DecodeFieldTypeError. Qed.
  Instance reads_DecodeCompTypeError : Reads d_DecodeCompTypeError. Proof. structure d_DecodeCompTypeError. Qed.
  Instance reads_InvalidPackTypeMarkerError : Reads d_InvalidPackTypeMarkerError. Proof. structure d_InvalidPackTypeMarkerError. Qed.
  Instance reads_DecodeSubTypeError : Reads d_DecodeSubTypeError. Proof. structure d_DecodeSubTypeError. Qed.
  Instance reads_DecodeRecTypeError : Reads d_DecodeRecTypeError. Proof. structure d_DecodeRecTypeError. Qed.
  Instance reads_ParseLimitsError : Reads d_ParseLimitsError. Proof. structure d_ParseLimitsError. Qed.
  Instance reads_DecodeMemoryTypeError : Reads d_DecodeMemoryTypeError. Proof. structure d_DecodeMemoryTypeError. Qed.
  Instance reads_DecodeTableTypeError : Reads d_DecodeTableTypeError. Proof. structure d_DecodeTableTypeError. Qed.
  Instance reads_DecodeTagTypeError : Reads d_DecodeTagTypeError. Proof. structure d_DecodeTagTypeError. Qed.
  Instance reads_DecodeExternTypeError : Reads d_DecodeExternTypeError. Proof. structure d_DecodeExternTypeError. Qed.
  Instance reads_MemargError : Reads d_MemargError. Proof. structure d_MemargError. Qed.
  Instance reads_LaneIdxError : Reads d_LaneIdxError. Proof. structure d_LaneIdxError. Qed.
  Instance reads_BlockTypeError : Reads d_BlockTypeError. Proof. structure d_BlockTypeError. Qed.
  Instance reads_CatchError : Reads d_CatchError. Proof. structure d_CatchError. Qed.
  Instance reads_ControlError : Reads d_ControlError. Proof. structure d_ControlError. Qed.
  Instance reads_ReferenceError : Reads d_ReferenceError. Proof. structure d_ReferenceError. Qed.
  Instance reads_AggregateError : Reads d_AggregateError. Proof. structure d_AggregateError. Qed.
  Instance reads_ParametricError : Reads d_ParametricError. Proof. structure d_ParametricError. Qed.
  Instance reads_VariableError : Reads d_VariableError. Proof. structure d_VariableError. Qed.
  Instance reads_TableError : Reads d_TableError. Proof. structure d_TableError. Qed.
  Instance reads_MemoryError : Reads d_MemoryError. Proof. structure d_MemoryError. Qed.
  Instance reads_NumericError : Reads d_NumericError. Proof. structure d_NumericError. Qed.
  Instance reads_VectorError : Reads d_VectorError. Proof. structure d_VectorError. Qed.
  Instance reads_ParseError : Reads d_ParseError. Proof. structure d_ParseError. Qed.
  Instance reads_ParseExpressionError : Reads d_ParseExpressionError. Proof. structure d_ParseExpressionError. Qed.
  Instance reads_DecodeCustomSectionError : Reads d_DecodeCustomSectionError. Proof. structure d_DecodeCustomSectionError. Qed.
  Instance reads_DecodeTypeSectionError : Reads d_DecodeTypeSectionError. Proof. structure d_DecodeTypeSectionError. Qed.
  Instance reads_DecodeImportError : Reads d_DecodeImportError. Proof. structure d_DecodeImportError. Qed.
  Instance reads_DecodeImportSectionError : Reads d_DecodeImportSectionError. Proof. structure d_DecodeImportSectionError. Qed.
  Instance reads_DecodeFunctionSectionError : Reads d_DecodeFunctionSectionError. Proof. structure d_DecodeFunctionSectionError. Qed.
  Instance reads_DecodeTableError : Reads d_DecodeTableError. Proof. structure d_DecodeTableError. Qed.
  Instance reads_DecodeTableSectionError : Reads d_DecodeTableSectionError. Proof. structure d_DecodeTableSectionError. Qed.
  Instance reads_DecodeMemorySectionError : Reads d_DecodeMemorySectionError. Proof. structure d_DecodeMemorySectionError. Qed.
  Instance reads_DecodeTagSectionError : Reads d_DecodeTagSectionError. Proof. structure d_DecodeTagSectionError. Qed.
  Instance reads_DecodeGlobalError : Reads d_DecodeGlobalError. Proof. structure d_DecodeGlobalError. Qed.
  Instance reads_DecodeGlobalSectionError : Reads d_DecodeGlobalSectionError. Proof. structure d_DecodeGlobalSectionError. Qed.
  Instance reads_InvalidExportDescMarkerByte : Reads d_InvalidExportDescMarkerByte. Proof. structure d_InvalidExportDescMarkerByte. Qed.
  Instance reads_DecodeExportError : Reads d_DecodeExportError. Proof. structure d_DecodeExportError. Qed.
  Instance reads_DecodeExportSectionError : Reads d_DecodeExportSectionError. Proof. structure d_DecodeExportSectionError. Qed.
  Instance reads_DecodeStartSectionError : Reads d_DecodeStartSectionError. Proof. structure d_DecodeStartSectionError. Qed.
  Instance reads_DecodeElementKindError : Reads d_DecodeElementKindError. Proof. structure d_DecodeElementKindError. Qed.
  Instance reads_DecodeElementError : Reads d_DecodeElementError. Proof. structure d_DecodeElementError. Qed.
  Instance reads_DecodeElementSectionError : Reads d_DecodeElementSectionError. Proof. structure d_DecodeElementSectionError. Qed.
  Instance reads_DecodeDataCountSectionError : Reads d_DecodeDataCountSectionError. Proof. structure d_DecodeDataCountSectionError. Qed.
  Instance reads_DecodeCodeLocalsError : Reads d_DecodeCodeLocalsError. Proof. structure d_DecodeCodeLocalsError. Qed.
  Instance reads_DecodeCodeError : Reads d_DecodeCodeError. Proof. structure d_DecodeCodeError. Qed.
  Instance reads_DecodeCodeSectionError : Reads d_DecodeCodeSectionError. Proof. structure d_DecodeCodeSectionError. Qed.
  Instance reads_DecodeDataSegmentError : Reads d_DecodeDataSegmentError. Proof. structure d_DecodeDataSegmentError. Qed.
  Instance reads_DecodeDataSectionError : Reads d_DecodeDataSectionError. Proof. structure d_DecodeDataSectionError. Qed.
  Instance reads_ParsePreambleError : Reads d_ParsePreambleError. Proof. structure d_ParsePreambleError. Qed.
  Instance reads_InvalidSectionIdError : Reads d_InvalidSectionIdError. Proof. structure d_InvalidSectionIdError. Qed.
  Instance reads_DecodeSectionHeaderError : Reads d_DecodeSectionHeaderError. Proof. structure d_DecodeSectionHeaderError. Qed.
  Instance reads_DecodeModuleError : Reads d_DecodeModuleError. Proof. structure d_DecodeModuleError. Qed.

  Theorem debug_error_exact e e' : debug_error e = debug_error e' <-> e = e'.
  Proof.
    split; [|intros ->; reflexivity]. intros E. apply (rd_inj (d := d_DecodeModuleError)). apply (pretty_inj true); [apply (rd_wf (p := paths))..|exact E].
  Qed.
  Theorem compact_error_exact e e' : compact_error e = compact_error e' <-> e = e'.
  Proof.
    split; [|intros ->; reflexivity]. intros E. apply (rd_inj (d := d_DecodeModuleError)). apply (compact_inj true); [apply (rd_wf (p := paths))..|exact E].
  Qed.
  Lemma error_wf e : wf true (d_DecodeModuleError e).
  Proof. apply (rd_wf (p := paths)). Qed.
End Error.
