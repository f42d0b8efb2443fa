(** The crate's public error types, variant by variant.  Simplifications:
    [io::Error] is its kind (Io.v); [FromUtf8Error] is the bytes it returns
    ([into_bytes]; the position it also records is determined by them); newtype structs are
    one-constructor types; usize/u32/u64 are [N]. *)
From Verif Require Import Model.Prelude Model.Io Model.Ast.

(** src/decode/integer.rs:9-18 *)
Inductive DecodeU32Error := U32_TooLarge | U32_RepresentationTooLong | U32_Io (e : io_error).
(** src/decode/integer.rs:53-62 *)
Inductive DecodeU64Error := U64_TooLarge | U64_RepresentationTooLong | U64_Io (e : io_error).
(** src/decode/integer.rs:97-106 *)
Inductive DecodeI32Error := I32_TooLarge | I32_RepresentationTooLong | I32_Io (e : io_error).
(** src/decode/integer.rs:140-149 *)
Inductive DecodeI64Error := I64_RepresentationTooLong | I64_IncorrectSignExtension | I64_Io (e : io_error).
(** src/decode/integer.rs:191-200 *)
Inductive DecodeS33Error := S33_RepresentationTooLong | S33_IncorrectSignExtension | S33_Io (e : io_error).

(** src/decode/indices.rs:12-14 (define_index_decoder!), instantiated 26-35 *)
Inductive DecodeTypeIdxError := TypeIdxE (e : DecodeU32Error).
Inductive DecodeFuncIdxError := FuncIdxE (e : DecodeU32Error).
Inductive DecodeTableIdxError := TableIdxE (e : DecodeU32Error).
Inductive DecodeMemIdxError := MemIdxE (e : DecodeU32Error).
Inductive DecodeGlobalIdxError := GlobalIdxE (e : DecodeU32Error).
Inductive DecodeElemIdxError := ElemIdxE (e : DecodeU32Error).
Inductive DecodeDataIdxError := DataIdxE (e : DecodeU32Error).
Inductive DecodeLocalIdxError := LocalIdxE (e : DecodeU32Error).
Inductive DecodeLabelIdxError := LabelIdxE (e : DecodeU32Error).
Inductive DecodeTagIdxError := TagIdxE (e : DecodeU32Error).

(** src/decode/helpers.rs:69-72 *)
Inductive DecodeFloat32Error := F32_ReadPayload (e : io_error).
(** src/decode/helpers.rs:81-84 *)
Inductive DecodeFloat64Error := F64_ReadPayload (e : io_error).
(** src/decode/helpers.rs:93-99 *)
Inductive DecodeListError (E : Type) :=
| DecodeLength (e : DecodeU32Error)
| ParseElement (position : u32) (source : E).
Arguments DecodeLength {E} e.
Arguments ParseElement {E} position source.
(** src/decode/helpers.rs:148-154 *)
Inductive DecodeByteVectorError := BV_DecodeLength (e : DecodeU32Error) | BV_ReadElements (e : io_error).
(** src/decode/helpers.rs:166-172 *)
Inductive DecodeNameError := Name_DecodeByteVector (e : DecodeByteVectorError) | Name_Utf8 (bytes : list byte).

(** src/decode/types/heaptype.rs:66 *)
Inductive InvalidAbsHeapTypeMarkerError := InvalidAbsHeapTypeMarker (b : byte).
(** src/decode/types/heaptype.rs:83-89 *)
Inductive DecodeAbsHeapTypeError :=
| AHT_ReadMarkerByte (e : io_error) | AHT_InvalidMarkerByte (e : InvalidAbsHeapTypeMarkerError).
(** src/decode/types/heaptype.rs:11-20 *)
Inductive DecodeHeapTypeError :=
| HT_ReadMarkerByte (e : io_error) | HT_DecodeTypeIndex (e : DecodeS33Error) | HT_NegativeTypeIndex (x : i64).
(** src/decode/types/reftype.rs:10-19 *)
Inductive DecodeRefTypeError :=
| RT_Io (e : io_error) | RT_DecodeHeapType (e : DecodeHeapTypeError)
| RT_InvalidMarkerByte (e : DecodeAbsHeapTypeError).
(** src/decode/types/valtype.rs:11-17 *)
Inductive DecodeValTypeError := VTE_Io (e : io_error) | VTE_DecodeRefType (e : DecodeRefTypeError).
(** src/decode/types/resulttype.rs:9-12 *)
Inductive DecodeResultTypeError := RTE_DecodeList (e : DecodeListError DecodeValTypeError).
(** src/decode/types/globaltype.rs:48 *)
Inductive InvalidMutabilityByteError := InvalidMutabilityByte (b : byte).
(** src/decode/types/globaltype.rs:11-20 *)
Inductive DecodeGlobalTypeError :=
| GT_DecodeValueType (e : DecodeValTypeError) | GT_DecodeMutability (e : io_error)
| GT_InvalidMutability (e : InvalidMutabilityByteError).
(** src/decode/types/comptype.rs:93-102 *)
Inductive DecodeStorageTypeError :=
| ST_ReadMarkerByte (e : io_error)
| ST_DecodeValTypeOrPackType (marker : byte) (source : DecodeValTypeError).
(** src/decode/types/comptype.rs:68-77 *)
Inductive DecodeFieldTypeError :=
| FT_DecodeStorageType (e : DecodeStorageTypeError) | FT_ReadMutabilityMarkerByte (e : io_error)
| FT_DecodeMutability (e : InvalidMutabilityByteError).
(** src/decode/types/comptype.rs:15-33 *)
Inductive DecodeCompTypeError :=
| CT_ReadMarkerByte (e : io_error) | CT_InvalidMarkerByte (b : byte)
| CT_DecodeStruct (e : DecodeListError DecodeFieldTypeError)
| CT_DecodeFuncParameters (e : DecodeResultTypeError) | CT_DecodeFuncResults (e : DecodeResultTypeError)
| CT_DecodeFieldType (e : DecodeFieldTypeError).
(** src/decode/types/comptype.rs:126 *)
Inductive InvalidPackTypeMarkerError := InvalidPackTypeMarker (b : byte).
(** src/decode/types/rectype.rs:42-51 *)
Inductive DecodeSubTypeError :=
| SubT_Io (e : io_error) | SubT_DecodeSupertypes (e : DecodeListError DecodeTypeIdxError)
| SubT_DecodeCompType (e : DecodeCompTypeError).
(** src/decode/types/rectype.rs:11-20 *)
Inductive DecodeRecTypeError :=
| Rec_Io (e : io_error) | Rec_DecodeSubtypes (e : DecodeListError DecodeSubTypeError)
| Rec_DecodeSubtype (e : DecodeSubTypeError).
(** src/decode/types/limits.rs:9-21 *)
Inductive ParseLimitsError :=
| Lim_ReadFlagByte (e : io_error) | Lim_UnexpectedFlagByte (b : byte)
| Lim_ReadMinLimit (e : DecodeU64Error) | Lim_ReadMaxLimit (e : DecodeU64Error).
(** src/decode/types/memtype.rs:8 *)
Inductive DecodeMemoryTypeError := MemTypeE (e : ParseLimitsError).
(** src/decode/types/tabletype.rs:10-16 *)
Inductive DecodeTableTypeError := TT_DecodeRefType (e : DecodeRefTypeError) | TT_DecodeLimits (e : ParseLimitsError).
(** src/decode/types/tagtype.rs:10-21 *)
Inductive DecodeTagTypeError :=
| Tag_ReadMarkerByte (e : io_error) | Tag_InvalidMarkerByte (b : byte) | Tag_DecodeTypeIndex (e : DecodeTypeIdxError).
(** src/decode/types/externtype.rs:17-40 *)
Inductive DecodeExternTypeError :=
| Ext_ReadMarkerByte (e : io_error) | Ext_InvalidMarkerByte (b : byte)
| Ext_DecodeTypeIndex (e : DecodeTypeIdxError) | Ext_DecodeTableType (e : DecodeTableTypeError)
| Ext_DecodeMemoryType (e : DecodeMemoryTypeError) | Ext_DecodeGlobalType (e : DecodeGlobalTypeError)
| Ext_DecodeTagType (e : DecodeTagTypeError).

(** src/decode/instructions.rs:1022-1034 *)
Inductive MemargError :=
| MA_InvalidFlagsBit (n : u32) | MA_Align (e : DecodeU32Error) | MA_Offset (e : DecodeU64Error)
| MA_MemIdx (e : DecodeMemIdxError).
(** src/decode/instructions.rs:1060 *)
Inductive LaneIdxError := LaneIdxE (e : io_error).
(** src/decode/instructions.rs:1073-1082 *)
Inductive BlockTypeError :=
| BT_ReadMarkerByte (e : io_error) | BT_DecodeIndex (e : DecodeS33Error) | BT_NegativeTypeIndex (x : i64).
(** src/decode/instructions.rs:1114-1126 *)
Inductive CatchError :=
| Catch_ReadMarkerByte (e : io_error) | Catch_InvalidMarkerByte (b : byte)
| Catch_DecodeTagIdx (e : DecodeTagIdxError) | Catch_DecodeLabelIdx (e : DecodeLabelIdxError).
(** src/decode/instructions.rs:62-98 *)
Inductive ControlError :=
| Ctl_LabelIdx (e : DecodeLabelIdxError) | Ctl_DecodeLabelIdxVector (e : DecodeListError DecodeLabelIdxError)
| Ctl_FuncIdx (e : DecodeFuncIdxError) | Ctl_TableIdx (e : DecodeTableIdxError)
| Ctl_TypeIdx (e : DecodeTypeIdxError) | Ctl_TagIdx (e : DecodeTagIdxError)
| Ctl_DecodeCatchListError (e : DecodeListError CatchError) | Ctl_BlockType (e : BlockTypeError)
| Ctl_UnexpectedElse | Ctl_ReadCastNullabilityMarker (e : io_error)
| Ctl_InvalidCastNullabilityMarker (b : byte) | Ctl_HeapType (e : DecodeHeapTypeError).
(** src/decode/instructions.rs:101-110 *)
Inductive ReferenceError :=
| Ref_HeapType (e : DecodeHeapTypeError) | Ref_FuncIdx (e : DecodeFuncIdxError) | Ref_ReadSubOpcode (e : DecodeU32Error).
(** src/decode/instructions.rs:113-128 *)
Inductive AggregateError :=
| Agg_TypeIdx (e : DecodeTypeIdxError) | Agg_FieldIndex (e : DecodeU32Error) | Agg_DataIdx (e : DecodeDataIdxError)
| Agg_ElemIdx (e : DecodeElemIdxError) | Agg_ArrayFixedLength (e : DecodeU32Error).
(** src/decode/instructions.rs:131-134 *)
Inductive ParametricError := Par_DecodeList (e : DecodeListError DecodeValTypeError).
(** src/decode/instructions.rs:137-143 *)
Inductive VariableError := Var_LocalIdx (e : DecodeLocalIdxError) | Var_GlobalIdx (e : DecodeGlobalIdxError).
(** src/decode/instructions.rs:146-152 *)
Inductive TableError := Tab_TableIdx (e : DecodeTableIdxError) | Tab_ElemIdx (e : DecodeElemIdxError).
(** src/decode/instructions.rs:155-164 *)
Inductive MemoryError :=
| Mem_DecodeMemarg (e : MemargError) | Mem_DecodeDataIdx (e : DecodeDataIdxError) | Mem_DecodeMemIdx (e : DecodeMemIdxError).
(** src/decode/instructions.rs:167-182 *)
Inductive NumericError :=
| Num_ReadOpcode (e : DecodeU32Error) | Num_DecodeI32 (e : DecodeI32Error) | Num_DecodeI64 (e : DecodeI64Error)
| Num_DecodeF32 (e : DecodeFloat32Error) | Num_DecodeF64 (e : DecodeFloat64Error).
(** src/decode/instructions.rs:185-200 *)
Inductive VectorError :=
| Vec_ReadOpcode (e : DecodeU32Error) | Vec_Memarg (e : MemargError) | Vec_LaneIdx (e : LaneIdxError)
| Vec_ReadImmediateBytes (e : io_error) | Vec_InvalidOpcode (n : u32).
(** src/decode/instructions.rs:20-59 *)
Inductive ParseError :=
| PE_ReadOpcode (e : io_error) | PE_Control (e : ControlError) | PE_Reference (e : ReferenceError)
| PE_Aggregate (e : AggregateError) | PE_Parametric (e : ParametricError) | PE_Variable (e : VariableError)
| PE_Table (e : TableError) | PE_Memory (e : MemoryError) | PE_Numeric (e : NumericError) | PE_Vector (e : VectorError)
| PE_InvalidOpcode (b : byte) | PE_InvalidMarkerByteAfterFC (n : u32) | PE_InvalidMarkerByteAfterFB (n : u32).
(** src/decode/helpers.rs:15-21 *)
Inductive ParseExpressionError := Expr_ParseInstruction (e : ParseError) | Expr_UnexpectedElse.

(** src/decode/sections/custom.rs:7-13 *)
Inductive DecodeCustomSectionError := Cust_DecodeName (e : DecodeNameError) | Cust_Io (e : io_error).
(** src/decode/sections/type.rs:8-11 *)
Inductive DecodeTypeSectionError := TypeSec_DecodeList (e : DecodeListError DecodeRecTypeError).
(** src/decode/sections/import.rs:25-34 *)
Inductive DecodeImportError :=
| Imp_DecodeModuleName (e : DecodeNameError) | Imp_DecodeItemName (e : DecodeNameError)
| Imp_DecodeExternType (e : DecodeExternTypeError).
(** src/decode/sections/import.rs:9-12 *)
Inductive DecodeImportSectionError := ImportSec_DecodeList (e : DecodeListError DecodeImportError).
(** src/decode/sections/function.rs:8-11 *)
Inductive DecodeFunctionSectionError := FuncSec_DecodeList (e : DecodeListError DecodeTypeIdxError).
(** src/decode/sections/table.rs:26-38 *)
Inductive DecodeTableError :=
| Tbl_Io (e : io_error) | Tbl_UnexpectedMarkerByte (b : byte) | Tbl_DecodeTableType (e : DecodeTableTypeError)
| Tbl_DecodeExpression (e : ParseExpressionError).
(** src/decode/sections/table.rs:11-14 *)
Inductive DecodeTableSectionError := TableSec_DecodeList (e : DecodeListError DecodeTableError).
(** src/decode/sections/memory.rs:8-11 *)
Inductive DecodeMemorySectionError := MemSec_DecodeList (e : DecodeListError DecodeMemoryTypeError).
(** src/decode/sections/tag.rs:8-11 *)
Inductive DecodeTagSectionError := TagSec_DecodeList (e : DecodeListError DecodeTagTypeError).
(** src/decode/sections/global.rs:21-27 *)
Inductive DecodeGlobalError := Glob_DecodeGlobalType (e : DecodeGlobalTypeError) | Glob_DecodeInit (e : ParseExpressionError).
(** src/decode/sections/global.rs:9-12 *)
Inductive DecodeGlobalSectionError := GlobalSec_DecodeList (e : DecodeListError DecodeGlobalError).
(** src/decode/sections/export.rs:54 *)
Inductive InvalidExportDescMarkerByte := InvalidExportDescMarker (b : byte).
(** src/decode/sections/export.rs:23-35 *)
Inductive DecodeExportError :=
| Exp_DecodeName (e : DecodeNameError) | Exp_ReadDescriptorMarkerByte (e : io_error)
| Exp_DecodeIndex (e : DecodeU32Error) | Exp_InvalidDescriptorMarkerByte (e : InvalidExportDescMarkerByte).
(** src/decode/sections/export.rs:11-14 *)
Inductive DecodeExportSectionError := ExportSec_DecodeList (e : DecodeListError DecodeExportError).
(** src/decode/sections/start.rs:8 *)
Inductive DecodeStartSectionError := StartSecE (e : DecodeFuncIdxError).
(** src/decode/sections/element.rs:167-173 *)
Inductive DecodeElementKindError := EK_Io (e : io_error) | EK_InvalidElemKind (b : byte).
(** src/decode/sections/element.rs:32-59 *)
Inductive DecodeElementError :=
| El_DecodeBitfield (e : DecodeU32Error) | El_InvalidBitfield (n : u32)
| El_DecodeOffsetExpression (e : ParseExpressionError) | El_DecodeElementKind (e : DecodeElementKindError)
| El_DecodeElementExpression (e : ParseExpressionError) | El_DecodeTableIdx (e : DecodeTableIdxError)
| El_DecodeReferenceType (e : DecodeRefTypeError) | El_DecodeInit (e : DecodeListError ParseExpressionError)
| El_DecodeFuncIdxVector (e : DecodeListError DecodeFuncIdxError).
(** src/decode/sections/element.rs:16-19 *)
Inductive DecodeElementSectionError := ElemSec_DecodeList (e : DecodeListError DecodeElementError).
(** src/decode/sections/data_count.rs:6-9 *)
Inductive DecodeDataCountSectionError := DC_DecodeDataSegmentCount (e : DecodeU32Error).
(** src/decode/sections/code.rs:86-95 *)
Inductive DecodeCodeLocalsError :=
| Loc_DecodeLocalsCount (e : DecodeU32Error)
| Loc_LocalsCountOutOfBound (max_locals actual_locals : u64)
| Loc_DecodeLocalValType (e : DecodeValTypeError).
(** src/decode/sections/code.rs:30-48 *)
Inductive DecodeCodeError :=
| Code_DecodeFunctionSize (e : DecodeU32Error)
| Code_DecodeLocalsVector (e : DecodeListError DecodeCodeLocalsError)
| Code_DecodeFunctionBody (e : ParseExpressionError)
| Code_EntrySizeMismatch (declared_bytes : u32) (leftover_bytes consumed_bytes : u64).
(** src/decode/sections/code.rs:10-13 *)
Inductive DecodeCodeSectionError := CodeSec_DecodeList (e : DecodeListError DecodeCodeError).
(** src/decode/sections/data.rs:25-40 *)
Inductive DecodeDataSegmentError :=
| Dat_DecodeBitfield (e : DecodeU32Error) | Dat_InvalidBitfield (n : u32)
| Dat_DecodeOffsetExpr (e : ParseExpressionError) | Dat_DecodeInitVector (e : DecodeByteVectorError)
| Dat_DecodeMemIdx (e : DecodeMemIdxError).
(** src/decode/sections/data.rs:13-16 *)
Inductive DecodeDataSectionError := DataSec_DecodeList (e : DecodeListError DecodeDataSegmentError).

(** src/decode/module.rs:354-360 *)
Inductive ParsePreambleError := Pre_Io (e : io_error) | Pre_Unexpected (got : list byte).
(** src/decode/module.rs:78 *)
Inductive InvalidSectionIdError := InvalidSectionId (b : byte).
(** src/decode/module.rs:374-383 *)
Inductive DecodeSectionHeaderError :=
| Hdr_ReadSectionIdByte (e : io_error) | Hdr_InvalidSectionId (e : InvalidSectionIdError)
| Hdr_DecodeSectionSize (e : DecodeU32Error).
(** src/decode/module.rs:122-204.  [DecodeDataCount(TryFromIntError)] is kept
    but never produced: usize has at least 32 bits in this model. *)
Inductive DecodeModuleError :=
| DM_ParsePreamble (e : ParsePreambleError)
| DM_CodeFuncEntriesLenMismatch (codes_len funcs_len : N)
| DM_DataCountMismatch (datas_len : N) (data_count : u32)
| DM_SectionOutOfOrder (current previous : SectionKind)
| DM_DuplicateSection (k : SectionKind)
| DM_SectionSizeMismatch (section_kind : SectionKind) (declared : u32) (got : u64)
| DM_DataCountDatasLenMismatch (datas_len : N) (data_count : u32)
| DM_DecodeDataCount
| DM_DataIndexWithoutDataCount
| DM_DecodeSectionHeader (e : DecodeSectionHeaderError)
| DM_DecodeCustomSection (e : DecodeCustomSectionError)
| DM_DecodeTypeSection (e : DecodeTypeSectionError)
| DM_DecodeImportSection (e : DecodeImportSectionError)
| DM_DecodeFunctionSection (e : DecodeFunctionSectionError)
| DM_DecodeTableSection (e : DecodeTableSectionError)
| DM_DecodeMemorySection (e : DecodeMemorySectionError)
| DM_DecodeGlobalSection (e : DecodeGlobalSectionError)
| DM_DecodeExportSection (e : DecodeExportSectionError)
| DM_DecodeStartSection (e : DecodeStartSectionError)
| DM_DecodeElementSection (e : DecodeElementSectionError)
| DM_DecodeDatacountSection (e : DecodeDataCountSectionError)
| DM_DecodeCodeSection (e : DecodeCodeSectionError)
| DM_DecodeDataSection (e : DecodeDataSectionError)
| DM_DecodeTagSection (e : DecodeTagSectionError).
