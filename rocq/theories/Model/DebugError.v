(** [{err:#?}] (wadec-cli/src/main.rs:47) and [{err:?}] (what [unwrap()] prints): the [Debug] implementations of the
    crate's error types, derived except for [DecodeListError]. *)
From Verif Require Import Model.Prelude Model.Io Model.Ast Model.Errors Model.Display Model.Debug.
From Coq Require Import String Ascii Strings.Byte.
Local Open Scope string_scope.

(** std::num::TryFromIntError *)
Definition d_try_from_int_error : dtree := DTuple "TryFromIntError" [DAtom "()"].

Section DebugError.
  Context {T : Texts}.
  (** std::string::FromUtf8Error, up to its Utf8Error *)
  Definition d_from_utf8_error (bytes : list byte) : dtree :=
    DStruct "FromUtf8Error" [("bytes", d_bytes bytes); ("error", debug_utf8_error bytes)].
  (** src/decode/integer.rs:9-18 *)
  Definition d_DecodeU32Error (e : DecodeU32Error) : dtree :=
    match e with
    | U32_TooLarge => DAtom "TooLarge"
    | U32_RepresentationTooLong => DAtom "RepresentationTooLong"
    | U32_Io x => DTuple "Io" [debug_io x]
    end.
  (** src/decode/integer.rs:53-62 *)
  Definition d_DecodeU64Error (e : DecodeU64Error) : dtree :=
    match e with
    | U64_TooLarge => DAtom "TooLarge"
    | U64_RepresentationTooLong => DAtom "RepresentationTooLong"
    | U64_Io x => DTuple "Io" [debug_io x]
    end.
  (** src/decode/integer.rs:97-106 *)
  Definition d_DecodeI32Error (e : DecodeI32Error) : dtree :=
    match e with
    | I32_TooLarge => DAtom "TooLarge"
    | I32_RepresentationTooLong => DAtom "RepresentationTooLong"
    | I32_Io x => DTuple "Io" [debug_io x]
    end.
  (** src/decode/integer.rs:140-149 *)
  Definition d_DecodeI64Error (e : DecodeI64Error) : dtree :=
    match e with
    | I64_RepresentationTooLong => DAtom "RepresentationTooLong"
    | I64_IncorrectSignExtension => DAtom "IncorrectSignExtension"
    | I64_Io x => DTuple "Io" [debug_io x]
    end.
  (** src/decode/integer.rs:191-200 *)
  Definition d_DecodeS33Error (e : DecodeS33Error) : dtree :=
    match e with
    | S33_RepresentationTooLong => DAtom "RepresentationTooLong"
    | S33_IncorrectSignExtension => DAtom "IncorrectSignExtension"
    | S33_Io x => DTuple "Io" [debug_io x]
    end.
  (** src/decode/indices.rs:12-14 *)
  Definition d_DecodeTypeIdxError (e : DecodeTypeIdxError) : dtree := match e with TypeIdxE x => DTuple "DecodeTypeIdxError" [d_DecodeU32Error x] end.
  Definition d_DecodeFuncIdxError (e : DecodeFuncIdxError) : dtree := match e with FuncIdxE x => DTuple "DecodeFuncIdxError" [d_DecodeU32Error x] end.
  Definition d_DecodeTableIdxError (e : DecodeTableIdxError) : dtree := match e with TableIdxE x => DTuple "DecodeTableIdxError" [d_DecodeU32Error x] end.
  Definition d_DecodeMemIdxError (e : DecodeMemIdxError) : dtree := match e with MemIdxE x => DTuple "DecodeMemIdxError" [d_DecodeU32Error x] end.
  Definition d_DecodeGlobalIdxError (e : DecodeGlobalIdxError) : dtree := match e with GlobalIdxE x => DTuple "DecodeGlobalIdxError" [d_DecodeU32Error x] end.
  Definition d_DecodeElemIdxError (e : DecodeElemIdxError) : dtree := match e with ElemIdxE x => DTuple "DecodeElemIdxError" [d_DecodeU32Error x] end.
  Definition d_DecodeDataIdxError (e : DecodeDataIdxError) : dtree := match e with DataIdxE x => DTuple "DecodeDataIdxError" [d_DecodeU32Error x] end.
  Definition d_DecodeLocalIdxError (e : DecodeLocalIdxError) : dtree := match e with LocalIdxE x => DTuple "DecodeLocalIdxError" [d_DecodeU32Error x] end.
  Definition d_DecodeLabelIdxError (e : DecodeLabelIdxError) : dtree := match e with LabelIdxE x => DTuple "DecodeLabelIdxError" [d_DecodeU32Error x] end.
  Definition d_DecodeTagIdxError (e : DecodeTagIdxError) : dtree := match e with TagIdxE x => DTuple "DecodeTagIdxError" [d_DecodeU32Error x] end.
  (** src/decode/helpers.rs:69-72 *)
  Definition d_DecodeFloat32Error (e : DecodeFloat32Error) : dtree :=
    match e with
    | F32_ReadPayload x => DTuple "ReadPayload" [debug_io x]
    end.
  (** src/decode/helpers.rs:81-84 *)
  Definition d_DecodeFloat64Error (e : DecodeFloat64Error) : dtree :=
    match e with
    | F64_ReadPayload x => DTuple "ReadPayload" [debug_io x]
    end.
  (** src/decode/helpers.rs:125-144, written by hand: the source is printed as
      [Type::] followed by its own text, pretty-printed whatever the formatter
      asks for; [type_name]: the last segment of
      [std::any::type_name::<E>()] *)
  Definition d_list_error {E} (type_name : string) (d : E -> dtree) (e : DecodeListError E) : dtree :=
    match e with
    | DecodeLength e => DTuple "DecodeLength" [d_DecodeU32Error e]
    | ParseElement position source => DStruct "ParseElement" [("position", d_N position); ("source", DPath type_name (d source))]
    end.
  (** src/decode/helpers.rs:148-154 *)
  Definition d_DecodeByteVectorError (e : DecodeByteVectorError) : dtree :=
    match e with
    | BV_DecodeLength x => DTuple "DecodeLength" [d_DecodeU32Error x]
    | BV_ReadElements x => DTuple "ReadElements" [debug_io x]
    end.
  (** src/decode/helpers.rs:166-172 *)
  Definition d_DecodeNameError (e : DecodeNameError) : dtree :=
    match e with
    | Name_DecodeByteVector x => DTuple "DecodeByteVector" [d_DecodeByteVectorError x]
    | Name_Utf8 x => DTuple "Utf8" [d_from_utf8_error x]
    end.
  (** src/decode/types/heaptype.rs:66 *)
  Definition d_InvalidAbsHeapTypeMarkerError (e : InvalidAbsHeapTypeMarkerError) : dtree := match e with InvalidAbsHeapTypeMarker x => DTuple "InvalidAbsHeapTypeMarkerError" [d_byte x] end.
  (** src/decode/types/heaptype.rs:83-89 *)
  Definition d_DecodeAbsHeapTypeError (e : DecodeAbsHeapTypeError) : dtree :=
    match e with
    | AHT_ReadMarkerByte x => DTuple "ReadMarkerByte" [debug_io x]
    | AHT_InvalidMarkerByte x => DTuple "InvalidMarkerByte" [d_InvalidAbsHeapTypeMarkerError x]
    end.
  (** src/decode/types/heaptype.rs:11-20 *)
  Definition d_DecodeHeapTypeError (e : DecodeHeapTypeError) : dtree :=
    match e with
    | HT_ReadMarkerByte x => DTuple "ReadMarkerByte" [debug_io x]
    | HT_DecodeTypeIndex x => DTuple "DecodeTypeIndex" [d_DecodeS33Error x]
    | HT_NegativeTypeIndex x => DTuple "NegativeTypeIndex" [d_Z x]
    end.
  (** src/decode/types/reftype.rs:10-19 *)
  Definition d_DecodeRefTypeError (e : DecodeRefTypeError) : dtree :=
    match e with
    | RT_Io x => DTuple "Io" [debug_io x]
    | RT_DecodeHeapType x => DTuple "DecodeHeapType" [d_DecodeHeapTypeError x]
    | RT_InvalidMarkerByte x => DTuple "InvalidMarkerByte" [d_DecodeAbsHeapTypeError x]
    end.
  (** src/decode/types/valtype.rs:11-17 *)
  Definition d_DecodeValTypeError (e : DecodeValTypeError) : dtree :=
    match e with
    | VTE_Io x => DTuple "Io" [debug_io x]
    | VTE_DecodeRefType x => DTuple "DecodeRefType" [d_DecodeRefTypeError x]
    end.
  (** src/decode/types/resulttype.rs:9-12 *)
  Definition d_DecodeResultTypeError (e : DecodeResultTypeError) : dtree :=
    match e with
    | RTE_DecodeList x => DTuple "DecodeList" [(d_list_error "DecodeValTypeError" d_DecodeValTypeError) x]
    end.
  (** src/decode/types/globaltype.rs:48 *)
  Definition d_InvalidMutabilityByteError (e : InvalidMutabilityByteError) : dtree := match e with InvalidMutabilityByte x => DTuple "InvalidMutabilityByteError" [d_byte x] end.
  (** src/decode/types/globaltype.rs:11-20 *)
  Definition d_DecodeGlobalTypeError (e : DecodeGlobalTypeError) : dtree :=
    match e with
    | GT_DecodeValueType x => DTuple "DecodeValueType" [d_DecodeValTypeError x]
    | GT_DecodeMutability x => DTuple "DecodeMutability" [debug_io x]
    | GT_InvalidMutability x => DTuple "InvalidMutability" [d_InvalidMutabilityByteError x]
    end.
  (** src/decode/types/comptype.rs:93-102 *)
  Definition d_DecodeStorageTypeError (e : DecodeStorageTypeError) : dtree :=
    match e with
    | ST_ReadMarkerByte x => DTuple "ReadMarkerByte" [debug_io x]
    | ST_DecodeValTypeOrPackType x0 x1 => DStruct "DecodeValTypeOrPackType" [("marker", d_byte x0); ("source", d_DecodeValTypeError x1)]
    end.
  (** src/decode/types/comptype.rs:68-77 *)
  Definition d_DecodeFieldTypeError (e : DecodeFieldTypeError) : dtree :=
    match e with
    | FT_DecodeStorageType x => DTuple "DecodeStorageType" [d_DecodeStorageTypeError x]
    | FT_ReadMutabilityMarkerByte x => DTuple "ReadMutabilityMarkerByte" [debug_io x]
    | FT_DecodeMutability x => DTuple "DecodeMutability" [d_InvalidMutabilityByteError x]
    end.
  (** src/decode/types/comptype.rs:15-33 *)
  Definition d_DecodeCompTypeError (e : DecodeCompTypeError) : dtree :=
    match e with
    | CT_ReadMarkerByte x => DTuple "ReadMarkerByte" [debug_io x]
    | CT_InvalidMarkerByte x => DTuple "InvalidMarkerByte" [d_byte x]
    | CT_DecodeStruct x => DTuple "DecodeStruct" [(d_list_error "DecodeFieldTypeError" d_DecodeFieldTypeError) x]
    | CT_DecodeFuncParameters x => DTuple "DecodeFuncParameters" [d_DecodeResultTypeError x]
    | CT_DecodeFuncResults x => DTuple "DecodeFuncResults" [d_DecodeResultTypeError x]
    | CT_DecodeFieldType x => DTuple "DecodeFieldType" [d_DecodeFieldTypeError x]
    end.
  (** src/decode/types/comptype.rs:126 *)
  Definition d_InvalidPackTypeMarkerError (e : InvalidPackTypeMarkerError) : dtree := match e with InvalidPackTypeMarker x => DTuple "InvalidPackTypeMarkerError" [d_byte x] end.
  (** src/decode/types/rectype.rs:42-51 *)
  Definition d_DecodeSubTypeError (e : DecodeSubTypeError) : dtree :=
    match e with
    | SubT_Io x => DTuple "Io" [debug_io x]
    | SubT_DecodeSupertypes x => DTuple "DecodeSupertypes" [(d_list_error "DecodeTypeIdxError" d_DecodeTypeIdxError) x]
    | SubT_DecodeCompType x => DTuple "DecodeCompType" [d_DecodeCompTypeError x]
    end.
  (** src/decode/types/rectype.rs:11-20 *)
  Definition d_DecodeRecTypeError (e : DecodeRecTypeError) : dtree :=
    match e with
    | Rec_Io x => DTuple "Io" [debug_io x]
    | Rec_DecodeSubtypes x => DTuple "DecodeSubtypes" [(d_list_error "DecodeSubTypeError" d_DecodeSubTypeError) x]
    | Rec_DecodeSubtype x => DTuple "DecodeSubtype" [d_DecodeSubTypeError x]
    end.
  (** src/decode/types/limits.rs:9-21 *)
  Definition d_ParseLimitsError (e : ParseLimitsError) : dtree :=
    match e with
    | Lim_ReadFlagByte x => DTuple "ReadFlagByte" [debug_io x]
    | Lim_UnexpectedFlagByte x => DTuple "UnexpectedFlagByte" [d_byte x]
    | Lim_ReadMinLimit x => DTuple "ReadMinLimit" [d_DecodeU64Error x]
    | Lim_ReadMaxLimit x => DTuple "ReadMaxLimit" [d_DecodeU64Error x]
    end.
  (** src/decode/types/memtype.rs:8 *)
  Definition d_DecodeMemoryTypeError (e : DecodeMemoryTypeError) : dtree := match e with MemTypeE x => DTuple "DecodeMemoryTypeError" [d_ParseLimitsError x] end.
  (** src/decode/types/tabletype.rs:10-16 *)
  Definition d_DecodeTableTypeError (e : DecodeTableTypeError) : dtree :=
    match e with
    | TT_DecodeRefType x => DTuple "DecodeRefType" [d_DecodeRefTypeError x]
    | TT_DecodeLimits x => DTuple "DecodeLimits" [d_ParseLimitsError x]
    end.
  (** src/decode/types/tagtype.rs:10-21 *)
  Definition d_DecodeTagTypeError (e : DecodeTagTypeError) : dtree :=
    match e with
    | Tag_ReadMarkerByte x => DTuple "ReadMarkerByte" [debug_io x]
    | Tag_InvalidMarkerByte x => DTuple "InvalidMarkerByte" [d_byte x]
    | Tag_DecodeTypeIndex x => DTuple "DecodeTypeIndex" [d_DecodeTypeIdxError x]
    end.
  (** src/decode/types/externtype.rs:17-40 *)
  Definition d_DecodeExternTypeError (e : DecodeExternTypeError) : dtree :=
    match e with
    | Ext_ReadMarkerByte x => DTuple "ReadMarkerByte" [debug_io x]
    | Ext_InvalidMarkerByte x => DTuple "InvalidMarkerByte" [d_byte x]
    | Ext_DecodeTypeIndex x => DTuple "DecodeTypeIndex" [d_DecodeTypeIdxError x]
    | Ext_DecodeTableType x => DTuple "DecodeTableType" [d_DecodeTableTypeError x]
    | Ext_DecodeMemoryType x => DTuple "DecodeMemoryType" [d_DecodeMemoryTypeError x]
    | Ext_DecodeGlobalType x => DTuple "DecodeGlobalType" [d_DecodeGlobalTypeError x]
    | Ext_DecodeTagType x => DTuple "DecodeTagType" [d_DecodeTagTypeError x]
    end.
  (** src/decode/instructions.rs:1022-1034 *)
  Definition d_MemargError (e : MemargError) : dtree :=
    match e with
    | MA_InvalidFlagsBit x => DTuple "InvalidFlagsBit" [d_N x]
    | MA_Align x => DTuple "Align" [d_DecodeU32Error x]
    | MA_Offset x => DTuple "Offset" [d_DecodeU64Error x]
    | MA_MemIdx x => DTuple "MemIdx" [d_DecodeMemIdxError x]
    end.
  (** src/decode/instructions.rs:1060 *)
  Definition d_LaneIdxError (e : LaneIdxError) : dtree := match e with LaneIdxE x => DTuple "LaneIdxError" [debug_io x] end.
  (** src/decode/instructions.rs:1073-1082 *)
  Definition d_BlockTypeError (e : BlockTypeError) : dtree :=
    match e with
    | BT_ReadMarkerByte x => DTuple "ReadMarkerByte" [debug_io x]
    | BT_DecodeIndex x => DTuple "DecodeIndex" [d_DecodeS33Error x]
    | BT_NegativeTypeIndex x => DTuple "NegativeTypeIndex" [d_Z x]
    end.
  (** src/decode/instructions.rs:1114-1126 *)
  Definition d_CatchError (e : CatchError) : dtree :=
    match e with
    | Catch_ReadMarkerByte x => DTuple "ReadMarkerByte" [debug_io x]
    | Catch_InvalidMarkerByte x => DTuple "InvalidMarkerByte" [d_byte x]
    | Catch_DecodeTagIdx x => DTuple "DecodeTagIdx" [d_DecodeTagIdxError x]
    | Catch_DecodeLabelIdx x => DTuple "DecodeLabelIdx" [d_DecodeLabelIdxError x]
    end.
  (** src/decode/instructions.rs:62-98 *)
  Definition d_ControlError (e : ControlError) : dtree :=
    match e with
    | Ctl_LabelIdx x => DTuple "LabelIdx" [d_DecodeLabelIdxError x]
    | Ctl_DecodeLabelIdxVector x => DTuple "DecodeLabelIdxVector" [(d_list_error "DecodeLabelIdxError" d_DecodeLabelIdxError) x]
    | Ctl_FuncIdx x => DTuple "FuncIdx" [d_DecodeFuncIdxError x]
    | Ctl_TableIdx x => DTuple "TableIdx" [d_DecodeTableIdxError x]
    | Ctl_TypeIdx x => DTuple "TypeIdx" [d_DecodeTypeIdxError x]
    | Ctl_TagIdx x => DTuple "TagIdx" [d_DecodeTagIdxError x]
    | Ctl_DecodeCatchListError x => DTuple "DecodeCatchListError" [(d_list_error "CatchError" d_CatchError) x]
    | Ctl_BlockType x => DTuple "BlockType" [d_BlockTypeError x]
    | Ctl_UnexpectedElse => DAtom "UnexpectedElse"
    | Ctl_ReadCastNullabilityMarker x => DTuple "ReadCastNullabilityMarker" [debug_io x]
    | Ctl_InvalidCastNullabilityMarker x => DTuple "InvalidCastNullabilityMarker" [d_byte x]
    | Ctl_HeapType x => DTuple "HeapType" [d_DecodeHeapTypeError x]
    end.
  (** src/decode/instructions.rs:101-110 *)
  Definition d_ReferenceError (e : ReferenceError) : dtree :=
    match e with
    | Ref_HeapType x => DTuple "HeapType" [d_DecodeHeapTypeError x]
    | Ref_FuncIdx x => DTuple "FuncIdx" [d_DecodeFuncIdxError x]
    | Ref_ReadSubOpcode x => DTuple "ReadSubOpcode" [d_DecodeU32Error x]
    end.
  (** src/decode/instructions.rs:113-128 *)
  Definition d_AggregateError (e : AggregateError) : dtree :=
    match e with
    | Agg_TypeIdx x => DTuple "TypeIdx" [d_DecodeTypeIdxError x]
    | Agg_FieldIndex x => DTuple "FieldIndex" [d_DecodeU32Error x]
    | Agg_DataIdx x => DTuple "DataIdx" [d_DecodeDataIdxError x]
    | Agg_ElemIdx x => DTuple "ElemIdx" [d_DecodeElemIdxError x]
    | Agg_ArrayFixedLength x => DTuple "ArrayFixedLength" [d_DecodeU32Error x]
    end.
  (** src/decode/instructions.rs:131-134 *)
  Definition d_ParametricError (e : ParametricError) : dtree :=
    match e with
    | Par_DecodeList x => DTuple "DecodeList" [(d_list_error "DecodeValTypeError" d_DecodeValTypeError) x]
    end.
  (** src/decode/instructions.rs:137-143 *)
  Definition d_VariableError (e : VariableError) : dtree :=
    match e with
    | Var_LocalIdx x => DTuple "LocalIdx" [d_DecodeLocalIdxError x]
    | Var_GlobalIdx x => DTuple "GlobalIdx" [d_DecodeGlobalIdxError x]
    end.
  (** src/decode/instructions.rs:146-152 *)
  Definition d_TableError (e : TableError) : dtree :=
    match e with
    | Tab_TableIdx x => DTuple "TableIdx" [d_DecodeTableIdxError x]
    | Tab_ElemIdx x => DTuple "ElemIdx" [d_DecodeElemIdxError x]
    end.
  (** src/decode/instructions.rs:155-164 *)
  Definition d_MemoryError (e : MemoryError) : dtree :=
    match e with
    | Mem_DecodeMemarg x => DTuple "DecodeMemarg" [d_MemargError x]
    | Mem_DecodeDataIdx x => DTuple "DecodeDataIdx" [d_DecodeDataIdxError x]
    | Mem_DecodeMemIdx x => DTuple "DecodeMemIdx" [d_DecodeMemIdxError x]
    end.
  (** src/decode/instructions.rs:167-182 *)
  Definition d_NumericError (e : NumericError) : dtree :=
    match e with
    | Num_ReadOpcode x => DTuple "ReadOpcode" [d_DecodeU32Error x]
    | Num_DecodeI32 x => DTuple "DecodeI32" [d_DecodeI32Error x]
    | Num_DecodeI64 x => DTuple "DecodeI64" [d_DecodeI64Error x]
    | Num_DecodeF32 x => DTuple "DecodeF32" [d_DecodeFloat32Error x]
    | Num_DecodeF64 x => DTuple "DecodeF64" [d_DecodeFloat64Error x]
    end.
  (** src/decode/instructions.rs:185-200 *)
  Definition d_VectorError (e : VectorError) : dtree :=
    match e with
    | Vec_ReadOpcode x => DTuple "ReadOpcode" [d_DecodeU32Error x]
    | Vec_Memarg x => DTuple "Memarg" [d_MemargError x]
    | Vec_LaneIdx x => DTuple "LaneIdx" [d_LaneIdxError x]
    | Vec_ReadImmediateBytes x => DTuple "ReadImmediateBytes" [debug_io x]
    | Vec_InvalidOpcode x => DTuple "InvalidOpcode" [d_N x]
    end.
  (** src/decode/instructions.rs:20-59 *)
  Definition d_ParseError (e : ParseError) : dtree :=
    match e with
    | PE_ReadOpcode x => DTuple "ReadOpcode" [debug_io x]
    | PE_Control x => DTuple "Control" [d_ControlError x]
    | PE_Reference x => DTuple "Reference" [d_ReferenceError x]
    | PE_Aggregate x => DTuple "Aggregate" [d_AggregateError x]
    | PE_Parametric x => DTuple "Parametric" [d_ParametricError x]
    | PE_Variable x => DTuple "Variable" [d_VariableError x]
    | PE_Table x => DTuple "Table" [d_TableError x]
    | PE_Memory x => DTuple "Memory" [d_MemoryError x]
    | PE_Numeric x => DTuple "Numeric" [d_NumericError x]
    | PE_Vector x => DTuple "Vector" [d_VectorError x]
    | PE_InvalidOpcode x => DTuple "InvalidOpcode" [d_byte x]
    | PE_InvalidMarkerByteAfterFC x => DTuple "InvalidMarkerByteAfterFC" [d_N x]
    | PE_InvalidMarkerByteAfterFB x => DTuple "InvalidMarkerByteAfterFB" [d_N x]
    end.
  (** src/decode/helpers.rs:15-21 *)
  Definition d_ParseExpressionError (e : ParseExpressionError) : dtree :=
    match e with
    | Expr_ParseInstruction x => DTuple "ParseInstruction" [d_ParseError x]
    | Expr_UnexpectedElse => DAtom "UnexpectedElse"
    end.
  (** src/decode/sections/custom.rs:7-13 *)
  Definition d_DecodeCustomSectionError (e : DecodeCustomSectionError) : dtree :=
    match e with
    | Cust_DecodeName x => DTuple "DecodeName" [d_DecodeNameError x]
    | Cust_Io x => DTuple "Io" [debug_io x]
    end.
  (** src/decode/sections/type.rs:8-11 *)
  Definition d_DecodeTypeSectionError (e : DecodeTypeSectionError) : dtree :=
    match e with
    | TypeSec_DecodeList x => DTuple "DecodeList" [(d_list_error "DecodeRecTypeError" d_DecodeRecTypeError) x]
    end.
  (** src/decode/sections/import.rs:25-34 *)
  Definition d_DecodeImportError (e : DecodeImportError) : dtree :=
    match e with
    | Imp_DecodeModuleName x => DTuple "DecodeModuleName" [d_DecodeNameError x]
    | Imp_DecodeItemName x => DTuple "DecodeItemName" [d_DecodeNameError x]
    | Imp_DecodeExternType x => DTuple "DecodeExternType" [d_DecodeExternTypeError x]
    end.
  (** src/decode/sections/import.rs:9-12 *)
  Definition d_DecodeImportSectionError (e : DecodeImportSectionError) : dtree :=
    match e with
    | ImportSec_DecodeList x => DTuple "DecodeList" [(d_list_error "DecodeImportError" d_DecodeImportError) x]
    end.
  (** src/decode/sections/function.rs:8-11 *)
  Definition d_DecodeFunctionSectionError (e : DecodeFunctionSectionError) : dtree :=
    match e with
    | FuncSec_DecodeList x => DTuple "DecodeList" [(d_list_error "DecodeTypeIdxError" d_DecodeTypeIdxError) x]
    end.
  (** src/decode/sections/table.rs:26-38 *)
  Definition d_DecodeTableError (e : DecodeTableError) : dtree :=
    match e with
    | Tbl_Io x => DTuple "Io" [debug_io x]
    | Tbl_UnexpectedMarkerByte x => DTuple "UnexpectedMarkerByte" [d_byte x]
    | Tbl_DecodeTableType x => DTuple "DecodeTableType" [d_DecodeTableTypeError x]
    | Tbl_DecodeExpression x => DTuple "DecodeExpression" [d_ParseExpressionError x]
    end.
  (** src/decode/sections/table.rs:11-14 *)
  Definition d_DecodeTableSectionError (e : DecodeTableSectionError) : dtree :=
    match e with
    | TableSec_DecodeList x => DTuple "DecodeList" [(d_list_error "DecodeTableError" d_DecodeTableError) x]
    end.
  (** src/decode/sections/memory.rs:8-11 *)
  Definition d_DecodeMemorySectionError (e : DecodeMemorySectionError) : dtree :=
    match e with
    | MemSec_DecodeList x => DTuple "DecodeList" [(d_list_error "DecodeMemoryTypeError" d_DecodeMemoryTypeError) x]
    end.
  (** src/decode/sections/tag.rs:8-11 *)
  Definition d_DecodeTagSectionError (e : DecodeTagSectionError) : dtree :=
    match e with
    | TagSec_DecodeList x => DTuple "DecodeList" [(d_list_error "DecodeTagTypeError" d_DecodeTagTypeError) x]
    end.
  (** src/decode/sections/global.rs:21-27 *)
  Definition d_DecodeGlobalError (e : DecodeGlobalError) : dtree :=
    match e with
    | Glob_DecodeGlobalType x => DTuple "DecodeGlobalType" [d_DecodeGlobalTypeError x]
    | Glob_DecodeInit x => DTuple "DecodeInit" [d_ParseExpressionError x]
    end.
  (** src/decode/sections/global.rs:9-12 *)
  Definition d_DecodeGlobalSectionError (e : DecodeGlobalSectionError) : dtree :=
    match e with
    | GlobalSec_DecodeList x => DTuple "DecodeList" [(d_list_error "DecodeGlobalError" d_DecodeGlobalError) x]
    end.
  (** src/decode/sections/export.rs:54 *)
  Definition d_InvalidExportDescMarkerByte (e : InvalidExportDescMarkerByte) : dtree := match e with InvalidExportDescMarker x => DTuple "InvalidExportDescMarkerByte" [d_byte x] end.
  (** src/decode/sections/export.rs:23-35 *)
  Definition d_DecodeExportError (e : DecodeExportError) : dtree :=
    match e with
    | Exp_DecodeName x => DTuple "DecodeName" [d_DecodeNameError x]
    | Exp_ReadDescriptorMarkerByte x => DTuple "ReadDescriptorMarkerByte" [debug_io x]
    | Exp_DecodeIndex x => DTuple "DecodeIndex" [d_DecodeU32Error x]
    | Exp_InvalidDescriptorMarkerByte x => DTuple "InvalidDescriptorMarkerByte" [d_InvalidExportDescMarkerByte x]
    end.
  (** src/decode/sections/export.rs:11-14 *)
  Definition d_DecodeExportSectionError (e : DecodeExportSectionError) : dtree :=
    match e with
    | ExportSec_DecodeList x => DTuple "DecodeList" [(d_list_error "DecodeExportError" d_DecodeExportError) x]
    end.
  (** src/decode/sections/start.rs:8 *)
  Definition d_DecodeStartSectionError (e : DecodeStartSectionError) : dtree := match e with StartSecE x => DTuple "DecodeStartSectionError" [d_DecodeFuncIdxError x] end.
  (** src/decode/sections/element.rs:167-173 *)
  Definition d_DecodeElementKindError (e : DecodeElementKindError) : dtree :=
    match e with
    | EK_Io x => DTuple "Io" [debug_io x]
    | EK_InvalidElemKind x => DTuple "InvalidElemKind" [d_byte x]
    end.
  (** src/decode/sections/element.rs:32-59 *)
  Definition d_DecodeElementError (e : DecodeElementError) : dtree :=
    match e with
    | El_DecodeBitfield x => DTuple "DecodeBitfield" [d_DecodeU32Error x]
    | El_InvalidBitfield x => DTuple "InvalidBitfield" [d_N x]
    | El_DecodeOffsetExpression x => DTuple "DecodeOffsetExpression" [d_ParseExpressionError x]
    | El_DecodeElementKind x => DTuple "DecodeElementKind" [d_DecodeElementKindError x]
    | El_DecodeElementExpression x => DTuple "DecodeElementExpression" [d_ParseExpressionError x]
    | El_DecodeTableIdx x => DTuple "DecodeTableIdx" [d_DecodeTableIdxError x]
    | El_DecodeReferenceType x => DTuple "DecodeReferenceType" [d_DecodeRefTypeError x]
    | El_DecodeInit x => DTuple "DecodeInit" [(d_list_error "ParseExpressionError" d_ParseExpressionError) x]
    | El_DecodeFuncIdxVector x => DTuple "DecodeFuncIdxVector" [(d_list_error "DecodeFuncIdxError" d_DecodeFuncIdxError) x]
    end.
  (** src/decode/sections/element.rs:16-19 *)
  Definition d_DecodeElementSectionError (e : DecodeElementSectionError) : dtree :=
    match e with
    | ElemSec_DecodeList x => DTuple "DecodeList" [(d_list_error "DecodeElementError" d_DecodeElementError) x]
    end.
  (** src/decode/sections/data_count.rs:6-9 *)
  Definition d_DecodeDataCountSectionError (e : DecodeDataCountSectionError) : dtree :=
    match e with
    | DC_DecodeDataSegmentCount x => DTuple "DecodeDataSegmentCount" [d_DecodeU32Error x]
    end.
  (** src/decode/sections/code.rs:86-95 *)
  Definition d_DecodeCodeLocalsError (e : DecodeCodeLocalsError) : dtree :=
    match e with
    | Loc_DecodeLocalsCount x => DTuple "DecodeLocalsCount" [d_DecodeU32Error x]
    | Loc_LocalsCountOutOfBound x0 x1 => DStruct "LocalsCountOutOfBound" [("max_locals", d_N x0); ("actual_locals", d_N x1)]
    | Loc_DecodeLocalValType x => DTuple "DecodeLocalValType" [d_DecodeValTypeError x]
    end.
  (** src/decode/sections/code.rs:30-48 *)
  Definition d_DecodeCodeError (e : DecodeCodeError) : dtree :=
    match e with
    | Code_DecodeFunctionSize x => DTuple "DecodeFunctionSize" [d_DecodeU32Error x]
    | Code_DecodeLocalsVector x => DTuple "DecodeLocalsVector" [(d_list_error "DecodeCodeLocalsError" d_DecodeCodeLocalsError) x]
    | Code_DecodeFunctionBody x => DTuple "DecodeFunctionBody" [d_ParseExpressionError x]
    | Code_EntrySizeMismatch x0 x1 x2 => DStruct "EntrySizeMismatch" [("declared_bytes", d_N x0); ("leftover_bytes", d_N x1); ("consumed_bytes", d_N x2)]
    end.
  (** src/decode/sections/code.rs:10-13 *)
  Definition d_DecodeCodeSectionError (e : DecodeCodeSectionError) : dtree :=
    match e with
    | CodeSec_DecodeList x => DTuple "DecodeList" [(d_list_error "DecodeCodeError" d_DecodeCodeError) x]
    end.
  (** src/decode/sections/data.rs:25-40 *)
  Definition d_DecodeDataSegmentError (e : DecodeDataSegmentError) : dtree :=
    match e with
    | Dat_DecodeBitfield x => DTuple "DecodeBitfield" [d_DecodeU32Error x]
    | Dat_InvalidBitfield x => DTuple "InvalidBitfield" [d_N x]
    | Dat_DecodeOffsetExpr x => DTuple "DecodeOffsetExpr" [d_ParseExpressionError x]
    | Dat_DecodeInitVector x => DTuple "DecodeInitVector" [d_DecodeByteVectorError x]
    | Dat_DecodeMemIdx x => DTuple "DecodeMemIdx" [d_DecodeMemIdxError x]
    end.
  (** src/decode/sections/data.rs:13-16 *)
  Definition d_DecodeDataSectionError (e : DecodeDataSectionError) : dtree :=
    match e with
    | DataSec_DecodeList x => DTuple "DecodeList" [(d_list_error "DecodeDataSegmentError" d_DecodeDataSegmentError) x]
    end.
  (** src/decode/module.rs:354-360 *)
  Definition d_ParsePreambleError (e : ParsePreambleError) : dtree :=
    match e with
    | Pre_Io x => DTuple "Io" [debug_io x]
    | Pre_Unexpected x => DTuple "Unexpected" [d_bytes x]
    end.
  (** src/decode/module.rs:78 *)
  Definition d_InvalidSectionIdError (e : InvalidSectionIdError) : dtree := match e with InvalidSectionId x => DTuple "InvalidSectionIdError" [d_byte x] end.
  (** src/decode/module.rs:374-383 *)
  Definition d_DecodeSectionHeaderError (e : DecodeSectionHeaderError) : dtree :=
    match e with
    | Hdr_ReadSectionIdByte x => DTuple "ReadSectionIdByte" [debug_io x]
    | Hdr_InvalidSectionId x => DTuple "InvalidSectionId" [d_InvalidSectionIdError x]
    | Hdr_DecodeSectionSize x => DTuple "DecodeSectionSize" [d_DecodeU32Error x]
    end.
  (** src/decode/module.rs:122-204 *)
  Definition d_DecodeModuleError (e : DecodeModuleError) : dtree :=
    match e with
    | DM_ParsePreamble x => DTuple "ParsePreamble" [d_ParsePreambleError x]
    | DM_CodeFuncEntriesLenMismatch x0 x1 => DStruct "CodeFuncEntriesLenMismatch" [("codes_len", d_N x0); ("funcs_len", d_N x1)]
    | DM_DataCountMismatch x0 x1 => DStruct "DataCountMismatch" [("datas_len", d_N x0); ("data_count", d_N x1)]
    | DM_SectionOutOfOrder x0 x1 => DStruct "SectionOutOfOrder" [("current", d_kind x0); ("previous", d_kind x1)]
    | DM_DuplicateSection x => DTuple "DuplicateSection" [d_kind x]
    | DM_SectionSizeMismatch x0 x1 x2 => DStruct "SectionSizeMismatch" [("section_kind", d_kind x0); ("declared", d_N x1); ("got", d_N x2)]
    | DM_DataCountDatasLenMismatch x0 x1 => DStruct "DataCountDatasLenMismatch" [("datas_len", d_N x0); ("data_count", d_N x1)]
    | DM_DecodeDataCount => DTuple "DecodeDataCount" [d_try_from_int_error]
    | DM_DataIndexWithoutDataCount => DAtom "DataIndexWithoutDataCount"
    | DM_DecodeSectionHeader x => DTuple "DecodeSectionHeader" [d_DecodeSectionHeaderError x]
    | DM_DecodeCustomSection x => DTuple "DecodeCustomSection" [d_DecodeCustomSectionError x]
    | DM_DecodeTypeSection x => DTuple "DecodeTypeSection" [d_DecodeTypeSectionError x]
    | DM_DecodeImportSection x => DTuple "DecodeImportSection" [d_DecodeImportSectionError x]
    | DM_DecodeFunctionSection x => DTuple "DecodeFunctionSection" [d_DecodeFunctionSectionError x]
    | DM_DecodeTableSection x => DTuple "DecodeTableSection" [d_DecodeTableSectionError x]
    | DM_DecodeMemorySection x => DTuple "DecodeMemorySection" [d_DecodeMemorySectionError x]
    | DM_DecodeGlobalSection x => DTuple "DecodeGlobalSection" [d_DecodeGlobalSectionError x]
    | DM_DecodeExportSection x => DTuple "DecodeExportSection" [d_DecodeExportSectionError x]
    | DM_DecodeStartSection x => DTuple "DecodeStartSection" [d_DecodeStartSectionError x]
    | DM_DecodeElementSection x => DTuple "DecodeElementSection" [d_DecodeElementSectionError x]
    | DM_DecodeDatacountSection x => DTuple "DecodeDatacountSection" [d_DecodeDataCountSectionError x]
    | DM_DecodeCodeSection x => DTuple "DecodeCodeSection" [d_DecodeCodeSectionError x]
    | DM_DecodeDataSection x => DTuple "DecodeDataSection" [d_DecodeDataSectionError x]
    | DM_DecodeTagSection x => DTuple "DecodeTagSection" [d_DecodeTagSectionError x]
    end.
  (** [format!("{err:#?}")] *)
  (** wadec-cli/src/main.rs:47 *)
  Definition debug_error (e : DecodeModuleError) : string := pretty (d_DecodeModuleError e).
  (** [format!("{err:?}")] *)
  (** core::fmt, without # *)
  Definition compact_error (e : DecodeModuleError) : string := compact (d_DecodeModuleError e).
End DebugError.
