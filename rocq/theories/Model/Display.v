(** The [Display] and [Error] implementations that thiserror derives for the
    crate's error types: the text of every [#[error("..")]] attribute, and the
    field, if any, that [source()] returns.

    thiserror's rules (crate documentation): [#[error(transparent)]] forwards
    both Display and source() to the only field; otherwise source() returns the
    field marked [#[from]] or [#[source]] or named [source], and None if there
    is no such field.  An error value is turned into a [node] that keeps all
    three: the text, the payload, and whether the payload is the source.

    Debug output is in Debug.v and DebugError.v.  Not modelled: the texts of
    io::Error and FromUtf8Error (std; class [Texts] in Debug.v). *)
From Verif Require Import Model.Prelude Model.Io Model.Ast Model.Errors Model.Types Model.Module.
From Coq Require Import String Ascii Strings.Byte.
Local Open Scope string_scope.

(** ** core::fmt: the formats in use *)
Definition digit (d : N) : string := String (ascii_of_N (if (d <? 10)%N then 48 + d else 55 + d)) "".
Fixpoint digits (base : N) (fuel : nat) (n : N) : string :=
  match fuel with
  | O => digit (n mod base)
  | S fuel' => if (n <? base)%N then digit n else digits base fuel' (n / base) ++ digit (n mod base)
  end.
(** [{}] of an unsigned integer *)
(** core::fmt, used by the #[error] attributes that print a number, e.g. src/decode/module.rs:166-204 *)
Definition dec (n : N) : string := digits 10 (N.to_nat (N.log2 n)) n.
(** [{}] of a signed integer *)
Definition decZ (z : Z) : string := if (z <? 0)%Z then "-" ++ dec (Z.to_N (- z)) else dec (Z.to_N z).
(** [{:#X}] *)
Definition hex (n : N) : string := "0x" ++ digits 16 (N.to_nat (N.log2 n)) n.
(** [{:#04X}]: at least two digits *)
Definition hex04 (n : N) : string := if (n <? 16)%N then "0x0" ++ digit n else hex n.
Definition hexb (b : byte) : string := hex04 (Byte.to_N b).
(** newline *)
Definition nl : string := String (ascii_of_nat 10) "".
(** [{:#X?}] of a [u8; 8] *)
(** core::fmt, used in src/decode/module.rs:353-360 *)
Definition debug_bytes (bs : list byte) : string :=
  "[" ++ nl ++ fold_right (fun b s => "    " ++ hex (Byte.to_N b) ++ "," ++ nl ++ s) "" bs ++ "]".

(** [#[derive(Debug)]] of the field-less enums that occur in messages:
    src/core/module.rs:171-187, src/core/types/globaltype.rs, heaptype.rs *)
Definition debug_section (k : SectionKind) : string :=
  match k with
  | SK_Custom => "Custom" | SK_Type => "Type" | SK_Import => "Import" | SK_Function => "Function"
  | SK_Table => "Table" | SK_Memory => "Memory" | SK_Tag => "Tag" | SK_Global => "Global"
  | SK_Export => "Export" | SK_Start => "Start" | SK_Element => "Element" | SK_DataCount => "DataCount"
  | SK_Code => "Code" | SK_Data => "Data"
  end.
Definition debug_mut (m : Mut) : string := match m with Const => "Const" | Var => "Var" end.
Definition debug_absheaptype (t : AbsHeapType) : string :=
  match t with
  | AH_Exn => "Exn" | AH_Array => "Array" | AH_Struct => "Struct" | AH_I31 => "I31" | AH_Eq => "Eq" | AH_Any => "Any"
  | AH_Extern => "Extern" | AH_Func => "Func" | AH_None => "None" | AH_NoExtern => "NoExtern" | AH_NoFunc => "NoFunc" | AH_NoExn => "NoExn"
  end.

(** src/decode/mod.rs:29-35 [markers_formatted], of the markers in the order of
    the phf_ordered_map *)
Fixpoint join (l : list string) : string :=
  match l with [] => "" | [s] => s | s :: l' => s ++ ", " ++ join l' end.
Definition markers_formatted {A} (from_marker : byte -> option A) (debug : A -> string) (order : list byte) : string :=
  join (flat_map (fun b => match from_marker b with Some a => [hexb b ++ " (" ++ debug a ++ ")"] | None => [] end) order).
(** src/decode/types/globaltype.rs:37-41 *)
Definition mut_markers : string := markers_formatted mut_from_marker debug_mut [x00; x01].
(** derive(Debug) of src/core/types/comptype.rs; src/decode/types/comptype.rs:134-137 *)
Definition debug_packtype (t : PackType) : string := match t with PT_I8 => "I8" | PT_I16 => "I16" end.
Definition packtype_markers : string := markers_formatted packtype_from_marker debug_packtype [x77; x78].
(** src/decode/types/heaptype.rs:46-59 *)
Definition absheaptype_markers : string :=
  markers_formatted absheaptype_from_marker debug_absheaptype [x69; x6a; x6b; x6c; x6d; x6e; x6f; x70; x71; x72; x73; x74].
(** src/decode/module.rs:90-105 *)
Definition section_markers : string :=
  markers_formatted section_from_marker debug_section [x00; x01; x02; x03; x04; x05; x06; x07; x08; x09; x0a; x0b; x0c; x0d].

(** ** Errors *)
Inductive node : Type :=
| Leaf (message : string)
| Io (e : io_error)                       (* an io::Error *)
| FromUtf8 (bytes : list byte)            (* a FromUtf8Error *)
| Transparent (payload : node)
| Message (message : string) (payload : node)     (* the payload is the source *)
| Detached (message : string) (payload : node).   (* there is a payload, but source() is None *)

(** src/decode/integer.rs:8-18 *)
Definition n_u32 (e : DecodeU32Error) : node :=
  match e with
  | U32_TooLarge => Leaf "uint32 too large"
  | U32_RepresentationTooLong => Leaf "uint32 representation too long"
  | U32_Io e => Transparent (Io e)
  end.
(** src/decode/integer.rs:52-62 *)
Definition n_u64 (e : DecodeU64Error) : node :=
  match e with
  | U64_TooLarge => Leaf "uint64 too large"
  | U64_RepresentationTooLong => Leaf "uint64 representation too long"
  | U64_Io e => Transparent (Io e)
  end.
(** src/decode/integer.rs:96-106 *)
Definition n_i32 (e : DecodeI32Error) : node :=
  match e with
  | I32_TooLarge => Leaf "int32 too large"
  | I32_RepresentationTooLong => Leaf "int32 representation too long"
  | I32_Io e => Transparent (Io e)
  end.
(** src/decode/integer.rs:139-149 *)
Definition n_i64 (e : DecodeI64Error) : node :=
  match e with
  | I64_RepresentationTooLong => Leaf "int64 representation too long"
  | I64_IncorrectSignExtension => Leaf "int64 incorrect sign extension"
  | I64_Io e => Transparent (Io e)
  end.
(** src/decode/integer.rs:190-200 *)
Definition n_s33 (e : DecodeS33Error) : node :=
  match e with
  | S33_RepresentationTooLong => Leaf "s33 representation too long"
  | S33_IncorrectSignExtension => Leaf "s33 incorrect sign extension"
  | S33_Io e => Transparent (Io e)
  end.

(** src/decode/indices.rs:12-14 *)
Definition n_index (name : string) (e : DecodeU32Error) : node := Message ("failed decoding " ++ name ++ " index") (n_u32 e).
Definition n_typeidx (e : DecodeTypeIdxError) : node := match e with TypeIdxE e => n_index "TypeIdx" e end.
Definition n_funcidx (e : DecodeFuncIdxError) : node := match e with FuncIdxE e => n_index "FuncIdx" e end.
Definition n_tableidx (e : DecodeTableIdxError) : node := match e with TableIdxE e => n_index "TableIdx" e end.
Definition n_memidx (e : DecodeMemIdxError) : node := match e with MemIdxE e => n_index "MemIdx" e end.
Definition n_globalidx (e : DecodeGlobalIdxError) : node := match e with GlobalIdxE e => n_index "GlobalIdx" e end.
Definition n_elemidx (e : DecodeElemIdxError) : node := match e with ElemIdxE e => n_index "ElemIdx" e end.
Definition n_dataidx (e : DecodeDataIdxError) : node := match e with DataIdxE e => n_index "DataIdx" e end.
Definition n_localidx (e : DecodeLocalIdxError) : node := match e with LocalIdxE e => n_index "LocalIdx" e end.
Definition n_labelidx (e : DecodeLabelIdxError) : node := match e with LabelIdxE e => n_index "LabelIdx" e end.
Definition n_tagidx (e : DecodeTagIdxError) : node := match e with TagIdxE e => n_index "TagIdx" e end.

(** src/decode/helpers.rs:68-84 *)
Definition n_f32 (e : DecodeFloat32Error) : node := match e with F32_ReadPayload e => Message "failed reading 4 bytes for f32" (Io e) end.
Definition n_f64 (e : DecodeFloat64Error) : node := match e with F64_ReadPayload e => Message "failed reading 8 bytes for f64" (Io e) end.
(** src/decode/helpers.rs:92-99 *)
Definition n_list {E} (n : E -> node) (e : DecodeListError E) : node :=
  match e with
  | DecodeLength e => Message "failed decoding vector length" (n_u32 e)
  | ParseElement position source => Message ("failed parsing vector element at position " ++ dec position) (n source)
  end.
(** src/decode/helpers.rs:147-154 *)
Definition n_byte_vector (e : DecodeByteVectorError) : node :=
  match e with
  | BV_DecodeLength e => Message "failed decoding vector length" (n_u32 e)
  | BV_ReadElements e => Message "failed reading vector elements" (Io e)
  end.
(** src/decode/helpers.rs:165-172 *)
Definition n_name (e : DecodeNameError) : node :=
  match e with
  | Name_DecodeByteVector e => Transparent (n_byte_vector e)
  | Name_Utf8 bytes => Transparent (FromUtf8 bytes)
  end.

(** src/decode/types/heaptype.rs:61-66, 82-89, 10-20 *)
Definition n_invalid_absheaptype (e : InvalidAbsHeapTypeMarkerError) : node :=
  match e with InvalidAbsHeapTypeMarker b =>
    Leaf ("invalid AbsHeapType marker byte - expected one of " ++ absheaptype_markers ++ "; got " ++ hexb b) end.
Definition n_absheaptype (e : DecodeAbsHeapTypeError) : node :=
  match e with
  | AHT_ReadMarkerByte e => Message "failed reading Heap type marker byte" (Io e)
  | AHT_InvalidMarkerByte e => Transparent (n_invalid_absheaptype e)
  end.
(** src/decode/types/heaptype.rs:10-20 *)
Definition n_heaptype (e : DecodeHeapTypeError) : node :=
  match e with
  | HT_ReadMarkerByte e => Message "failed reading Heap type marker byte" (Io e)
  | HT_DecodeTypeIndex e => Message "failed decoding type index" (n_s33 e)
  | HT_NegativeTypeIndex x => Leaf ("type index negative: " ++ decZ x)
  end.
(** src/decode/types/reftype.rs:9-19 *)
Definition n_reftype (e : DecodeRefTypeError) : node :=
  match e with
  | RT_Io e => Transparent (Io e)
  | RT_DecodeHeapType e => Transparent (n_heaptype e)
  | RT_InvalidMarkerByte e => Transparent (n_absheaptype e)
  end.
(** src/decode/types/valtype.rs:10-17 *)
Definition n_valtype (e : DecodeValTypeError) : node :=
  match e with
  | VTE_Io e => Transparent (Io e)
  | VTE_DecodeRefType e => Transparent (n_reftype e)
  end.
(** src/decode/types/resulttype.rs:8-12 *)
Definition n_resulttype (e : DecodeResultTypeError) : node :=
  match e with RTE_DecodeList e => Transparent (n_list n_valtype e) end.
(** src/decode/types/globaltype.rs:43-48, 10-20 *)
Definition n_invalid_mut (e : InvalidMutabilityByteError) : node :=
  match e with InvalidMutabilityByte b =>
    Leaf ("invalid Mutability marker byte - expected one of " ++ mut_markers ++ "; got " ++ hexb b) end.
(** src/decode/types/comptype.rs:124-126; no other error contains it *)
Definition n_invalid_packtype (e : InvalidPackTypeMarkerError) : node :=
  match e with InvalidPackTypeMarker b =>
    Leaf ("invalid PackType marker byte - expected one of " ++ packtype_markers ++ "; got " ++ hexb b) end.
Definition n_globaltype (e : DecodeGlobalTypeError) : node :=
  match e with
  | GT_DecodeValueType e => Message "failed decoding Value type" (n_valtype e)
  | GT_DecodeMutability e => Detached "failed decoding Mutability" (Io e)
  | GT_InvalidMutability e => Transparent (n_invalid_mut e)
  end.
(** src/decode/types/comptype.rs:92-102, 67-77, 14-33 *)
Definition n_storagetype (e : DecodeStorageTypeError) : node :=
  match e with
  | ST_ReadMarkerByte e => Transparent (Io e)
  | ST_DecodeValTypeOrPackType marker source =>
      Message ("failed decoding as either PackType or ValType with marker byte " ++ hexb marker) (n_valtype source)
  end.
(** src/decode/types/comptype.rs:67-77 *)
Definition n_fieldtype (e : DecodeFieldTypeError) : node :=
  match e with
  | FT_DecodeStorageType e => Transparent (n_storagetype e)
  | FT_ReadMutabilityMarkerByte e => Transparent (Io e)
  | FT_DecodeMutability e => Transparent (n_invalid_mut e)
  end.
(** src/decode/types/comptype.rs:14-33 *)
Definition n_comptype (e : DecodeCompTypeError) : node :=
  match e with
  | CT_ReadMarkerByte e => Transparent (Io e)
  | CT_InvalidMarkerByte b => Leaf ("unexpected CompType marker byte: expected 0x5E, 0x5F or 0x60; got " ++ hexb b)
  | CT_DecodeStruct e => Message "failed decoding Field type list" (n_list n_fieldtype e)
  | CT_DecodeFuncParameters e => Detached "failed decoding Function type parameters" (n_resulttype e)
  | CT_DecodeFuncResults e => Detached "failed decoding Function type results" (n_resulttype e)
  | CT_DecodeFieldType e => Transparent (n_fieldtype e)
  end.
(** src/decode/types/rectype.rs:41-51, 10-20 *)
Definition n_subtype (e : DecodeSubTypeError) : node :=
  match e with
  | SubT_Io e => Transparent (Io e)
  | SubT_DecodeSupertypes e => Message "failed decoding supertypes" (n_list n_typeidx e)
  | SubT_DecodeCompType e => Message "failed decoding recursive subtype" (n_comptype e)
  end.
(** src/decode/types/rectype.rs:10-20 *)
Definition n_rectype (e : DecodeRecTypeError) : node :=
  match e with
  | Rec_Io e => Transparent (Io e)
  | Rec_DecodeSubtypes e => Message "failed decoding subtypes list" (n_list n_subtype e)
  | Rec_DecodeSubtype e => Message "failed decoding subtype" (n_subtype e)
  end.
(** src/decode/types/limits.rs:8-21 *)
Definition n_limits (e : ParseLimitsError) : node :=
  match e with
  | Lim_ReadFlagByte e => Detached "failed reading flag byte" (Io e)
  | Lim_UnexpectedFlagByte b => Leaf ("unexpected Limits flag byte: expected 0x00, 0x01, 0x04 or 0x05; got " ++ hexb b)
  | Lim_ReadMinLimit e => Detached "failed reading minimum limit" (n_u64 e)
  | Lim_ReadMaxLimit e => Detached "failed reading maximum limit" (n_u64 e)
  end.
(** src/decode/types/memtype.rs:6-8 *)
Definition n_memtype (e : DecodeMemoryTypeError) : node :=
  match e with MemTypeE e => Message "failed decoding Memory type" (n_limits e) end.
(** src/decode/types/tabletype.rs:9-16 *)
Definition n_tabletype (e : DecodeTableTypeError) : node :=
  match e with
  | TT_DecodeRefType e => Transparent (n_reftype e)
  | TT_DecodeLimits e => Transparent (n_limits e)
  end.
(** src/decode/types/tagtype.rs:8-21; the last variant takes the attribute of the enum *)
Definition n_tagtype (e : DecodeTagTypeError) : node :=
  match e with
  | Tag_ReadMarkerByte e => Transparent (Io e)
  | Tag_InvalidMarkerByte b => Leaf ("unexpected TagType marker byte: expected 0x00; got " ++ hexb b)
  | Tag_DecodeTypeIndex e => Message "failed decoding Tag type" (n_typeidx e)
  end.
(** src/decode/types/externtype.rs:16-40 *)
Definition n_externtype (e : DecodeExternTypeError) : node :=
  match e with
  | Ext_ReadMarkerByte e => Transparent (Io e)
  | Ext_InvalidMarkerByte b =>
      Leaf ("unexpected ExternType marker byte: expected 0x00, 0x01, 0x02, 0x03 or 0x04; got " ++ hexb b)
  | Ext_DecodeTypeIndex e => Transparent (n_typeidx e)
  | Ext_DecodeTableType e => Transparent (n_tabletype e)
  | Ext_DecodeMemoryType e => Transparent (n_memtype e)
  | Ext_DecodeGlobalType e => Transparent (n_globaltype e)
  | Ext_DecodeTagType e => Transparent (n_tagtype e)
  end.

(** src/decode/instructions.rs:1021-1034, 1058-1060, 1072-1082, 1113-1126 *)
Definition n_memarg (e : MemargError) : node :=
  match e with
  | MA_InvalidFlagsBit n => Leaf ("Invalid alignment flag " ++ dec n ++ "; should be less than 2^7")
  | MA_Align e => Detached "failed decoding alignment" (n_u32 e)
  | MA_Offset e => Detached "failed decoding offset" (n_u64 e)
  | MA_MemIdx e => Message "failed decoding memory index" (n_memidx e)
  end.
(** src/decode/instructions.rs:1058-1060 *)
Definition n_laneidx (e : LaneIdxError) : node := match e with LaneIdxE e => Message "failed decoding Lane index" (Io e) end.
(** src/decode/instructions.rs:1072-1082 *)
Definition n_blocktype (e : BlockTypeError) : node :=
  match e with
  | BT_ReadMarkerByte e => Detached "failed reading block type marker byte" (Io e)
  | BT_DecodeIndex e => Message "failed decoding block type index" (n_s33 e)
  | BT_NegativeTypeIndex x => Leaf ("blocktype Type index negative: " ++ decZ x)
  end.
(** src/decode/instructions.rs:1113-1126 *)
Definition n_catch (e : CatchError) : node :=
  match e with
  | Catch_ReadMarkerByte e => Message "failed reading catch block marker byte" (Io e)
  | Catch_InvalidMarkerByte b => Leaf ("invalid marker byte: expected 0x00, 0x01, 0x02 or 0x03; got " ++ hexb b)
  | Catch_DecodeTagIdx e => Transparent (n_tagidx e)
  | Catch_DecodeLabelIdx e => Transparent (n_labelidx e)
  end.
(** src/decode/instructions.rs:61-98 *)
Definition n_control (e : ControlError) : node :=
  match e with
  | Ctl_LabelIdx e => Message "failed decoding label index" (n_labelidx e)
  | Ctl_DecodeLabelIdxVector e => Message "failed decoding label index" (n_list n_labelidx e)
  | Ctl_FuncIdx e => Detached "failed decoding function index" (n_funcidx e)
  | Ctl_TableIdx e => Detached "failed decoding table index" (n_tableidx e)
  | Ctl_TypeIdx e => Detached "failed decoding type index" (n_typeidx e)
  | Ctl_TagIdx e => Detached "failed decoding tag index" (n_tagidx e)
  | Ctl_DecodeCatchListError e => Message "failed decoding Catch list" (n_list n_catch e)
  | Ctl_BlockType e => Detached "failed decoding block type" (n_blocktype e)
  | Ctl_UnexpectedElse => Leaf "unexpected `Else` token"
  | Ctl_ReadCastNullabilityMarker e => Detached "failed decoding nullability for cast operation" (Io e)
  | Ctl_InvalidCastNullabilityMarker b =>
      Leaf ("invalid cast operation marker byte: expected 0x00, 0x01, 0x02 or 0x03; got " ++ hexb b)
  | Ctl_HeapType e => Message "failed decoding heap type for cast operation" (n_heaptype e)
  end.
(** src/decode/instructions.rs:100-200 *)
Definition n_reference (e : ReferenceError) : node :=
  match e with
  | Ref_HeapType e => Detached "failed decoding heap type" (n_heaptype e)
  | Ref_FuncIdx e => Detached "failed decoding function index" (n_funcidx e)
  | Ref_ReadSubOpcode e => Detached "failed reading sub-opcode" (n_u32 e)
  end.
(** src/decode/instructions.rs:112-128 *)
Definition n_aggregate (e : AggregateError) : node :=
  match e with
  | Agg_TypeIdx e => Detached "failed decoding type index" (n_typeidx e)
  | Agg_FieldIndex e => Detached "failed decoding field index" (n_u32 e)
  | Agg_DataIdx e => Detached "failed decoding data index" (n_dataidx e)
  | Agg_ElemIdx e => Detached "failed decoding element index" (n_elemidx e)
  | Agg_ArrayFixedLength e => Detached "failed decoding array fixed length" (n_u32 e)
  end.
(** src/decode/instructions.rs:130-134 *)
Definition n_parametric (e : ParametricError) : node :=
  match e with Par_DecodeList e => Message "failed decoding value type vector" (n_list n_valtype e) end.
(** src/decode/instructions.rs:136-143 *)
Definition n_variable (e : VariableError) : node :=
  match e with
  | Var_LocalIdx e => Detached "failed decoding Local index" (n_localidx e)
  | Var_GlobalIdx e => Detached "failed decoding Global index" (n_globalidx e)
  end.
(** src/decode/instructions.rs:145-152 *)
Definition n_table_instr (e : TableError) : node :=
  match e with
  | Tab_TableIdx e => Detached "failed decoding table index" (n_tableidx e)
  | Tab_ElemIdx e => Detached "failed decoding element index" (n_elemidx e)
  end.
(** src/decode/instructions.rs:154-164 *)
Definition n_memory_instr (e : MemoryError) : node :=
  match e with
  | Mem_DecodeMemarg e => Detached "failed decoding Memarg" (n_memarg e)
  | Mem_DecodeDataIdx e => Detached "failed decoding data index" (n_dataidx e)
  | Mem_DecodeMemIdx e => Detached "failed decoding memory index" (n_memidx e)
  end.
(** src/decode/instructions.rs:166-182 *)
Definition n_numeric (e : NumericError) : node :=
  match e with
  | Num_ReadOpcode e => Detached "failed reading 0xFC-prefixed numeric opcode" (n_u32 e)
  | Num_DecodeI32 e => Transparent (n_i32 e)
  | Num_DecodeI64 e => Transparent (n_i64 e)
  | Num_DecodeF32 e => Transparent (n_f32 e)
  | Num_DecodeF64 e => Transparent (n_f64 e)
  end.
(** src/decode/instructions.rs:184-200 *)
Definition n_vector (e : VectorError) : node :=
  match e with
  | Vec_ReadOpcode e => Detached "failed reading Vector opcode" (n_u32 e)
  | Vec_Memarg e => Transparent (n_memarg e)
  | Vec_LaneIdx e => Transparent (n_laneidx e)
  | Vec_ReadImmediateBytes e => Detached "failed reading immediate bytes" (Io e)
  | Vec_InvalidOpcode n => Leaf ("unexpected Vector opcode: " ++ hex04 n)
  end.
(** src/decode/instructions.rs:19-59 *)
Definition n_instr (e : ParseError) : node :=
  match e with
  | PE_ReadOpcode e => Message "failed reading instruction opcode" (Io e)
  | PE_Control e => Message "failed decoding control instruction" (n_control e)
  | PE_Reference e => Message "failed decoding reference instruction" (n_reference e)
  | PE_Aggregate e => Message "failed decoding aggregate instruction" (n_aggregate e)
  | PE_Parametric e => Message "failed decoding parametric instruction" (n_parametric e)
  | PE_Variable e => Message "failed decoding variable instruction" (n_variable e)
  | PE_Table e => Message "failed decoding table instruction" (n_table_instr e)
  | PE_Memory e => Message "failed decoding memory instruction" (n_memory_instr e)
  | PE_Numeric e => Message "failed decoding numeric instruction" (n_numeric e)
  | PE_Vector e => Message "failed decoding vector instruction" (n_vector e)
  | PE_InvalidOpcode b => Leaf ("unexpected opcode: " ++ hexb b)
  | PE_InvalidMarkerByteAfterFC n => Leaf ("unexpected opcode after 0xFC marker byte: " ++ hex04 n)
  | PE_InvalidMarkerByteAfterFB n => Leaf ("unexpected opcode after 0xFB marker byte: " ++ hex04 n)
  end.
(** src/decode/helpers.rs:14-21 *)
Definition n_expr (e : ParseExpressionError) : node :=
  match e with
  | Expr_ParseInstruction e => Message "failed parsing instruction" (n_instr e)
  | Expr_UnexpectedElse => Leaf "unexpected Else delimiter"
  end.

(** src/decode/sections/custom.rs:6-13 *)
Definition n_custom_section (e : DecodeCustomSectionError) : node :=
  match e with
  | Cust_DecodeName e => Message "failed decoding custom section name" (n_name e)
  | Cust_Io e => Message "failed reading custom section contents" (Io e)
  end.
(** src/decode/sections/type.rs:7-11 *)
Definition n_type_section (e : DecodeTypeSectionError) : node :=
  match e with TypeSec_DecodeList e => Message "failed decoding Type section" (n_list n_rectype e) end.
(** src/decode/sections/import.rs:24-34, 8-12 *)
Definition n_import (e : DecodeImportError) : node :=
  match e with
  | Imp_DecodeModuleName e => Detached "failed decoding module name" (n_name e)
  | Imp_DecodeItemName e => Detached "failed decoding item name" (n_name e)
  | Imp_DecodeExternType e => Transparent (n_externtype e)
  end.
Definition n_import_section (e : DecodeImportSectionError) : node :=
  match e with ImportSec_DecodeList e => Message "failed decoding Import section" (n_list n_import e) end.
(** src/decode/sections/function.rs:7-11 *)
Definition n_function_section (e : DecodeFunctionSectionError) : node :=
  match e with FuncSec_DecodeList e => Message "failed decoding Function section" (n_list n_typeidx e) end.
(** src/decode/sections/table.rs:25-38, 10-14 *)
Definition n_table (e : DecodeTableError) : node :=
  match e with
  | Tbl_Io e => Transparent (Io e)
  | Tbl_UnexpectedMarkerByte b => Leaf ("unexpected marker byte: expected 0x00; got " ++ hexb b)
  | Tbl_DecodeTableType e => Transparent (n_tabletype e)
  | Tbl_DecodeExpression e => Transparent (n_expr e)
  end.
Definition n_table_section (e : DecodeTableSectionError) : node :=
  match e with TableSec_DecodeList e => Message "failed decoding Table section" (n_list n_table e) end.
(** src/decode/sections/memory.rs:7-11 *)
Definition n_memory_section (e : DecodeMemorySectionError) : node :=
  match e with MemSec_DecodeList e => Message "failed decoding Memory section" (n_list n_memtype e) end.
(** src/decode/sections/tag.rs:7-11 *)
Definition n_tag_section (e : DecodeTagSectionError) : node :=
  match e with TagSec_DecodeList e => Message "failed decoding Tag section" (n_list n_tagtype e) end.
(** src/decode/sections/global.rs:20-27, 8-12 *)
Definition n_global (e : DecodeGlobalError) : node :=
  match e with
  | Glob_DecodeGlobalType e => Transparent (n_globaltype e)
  | Glob_DecodeInit e => Message "failed decoding Init" (n_expr e)
  end.
Definition n_global_section (e : DecodeGlobalSectionError) : node :=
  match e with GlobalSec_DecodeList e => Message "failed decoding Global section" (n_list n_global e) end.
(** src/decode/sections/export.rs:50-54, 22-35, 10-14 *)
Definition n_invalid_exportdesc (e : InvalidExportDescMarkerByte) : node :=
  match e with InvalidExportDescMarker b =>
    Leaf ("invalid ExportDesc marker byte: expected 0x00 (func), 0x01 (table), 0x02 (mem), 0x03 (global), 0x04 (tag); got " ++ hexb b) end.
Definition n_export (e : DecodeExportError) : node :=
  match e with
  | Exp_DecodeName e => Transparent (n_name e)
  | Exp_ReadDescriptorMarkerByte e => Detached "failed reading Export descriptor marker byte" (Io e)
  | Exp_DecodeIndex e => Message "failed reading ExportDesc index" (n_u32 e)
  | Exp_InvalidDescriptorMarkerByte e => Transparent (n_invalid_exportdesc e)
  end.
Definition n_export_section (e : DecodeExportSectionError) : node :=
  match e with ExportSec_DecodeList e => Message "failed decoding Export section" (n_list n_export e) end.
(** src/decode/sections/start.rs:6-8 *)
Definition n_start_section (e : DecodeStartSectionError) : node :=
  match e with StartSecE e => Message "failed decoding Start section" (n_funcidx e) end.
(** src/decode/sections/element.rs:166-173, 31-59, 15-19 *)
Definition n_elemkind (e : DecodeElementKindError) : node :=
  match e with
  | EK_Io e => Transparent (Io e)
  | EK_InvalidElemKind b => Leaf ("expected byte 0x00; got " ++ hexb b)
  end.
Definition n_elem (e : DecodeElementError) : node :=
  match e with
  | El_DecodeBitfield e => Detached "failed decoding bitfield" (n_u32 e)
  | El_InvalidBitfield n => Leaf ("invalid bitfield: expected value in range [0,7]; got " ++ dec n)
  | El_DecodeOffsetExpression e => Detached "failed decoding offset expression" (n_expr e)
  | El_DecodeElementKind e => Message "failed decoding Element kind" (n_elemkind e)
  | El_DecodeElementExpression e => Detached "failed decoding Element expression" (n_expr e)
  | El_DecodeTableIdx e => Transparent (n_tableidx e)
  | El_DecodeReferenceType e => Transparent (n_reftype e)
  | El_DecodeInit e => Detached "failed decoding table.init expressions" (n_list n_expr e)
  | El_DecodeFuncIdxVector e => Transparent (n_list n_funcidx e)
  end.
Definition n_elem_section (e : DecodeElementSectionError) : node :=
  match e with ElemSec_DecodeList e => Message "failed decoding Element section" (n_list n_elem e) end.
(** src/decode/sections/data_count.rs:5-9 *)
Definition n_datacount_section (e : DecodeDataCountSectionError) : node :=
  match e with DC_DecodeDataSegmentCount e => Message "failed decoding Data Segment count" (n_u32 e) end.
(** src/decode/sections/code.rs:85-95, 29-48, 9-13 *)
Definition n_locals (e : DecodeCodeLocalsError) : node :=
  match e with
  | Loc_DecodeLocalsCount e => Detached "failed decoding count of function locals" (n_u32 e)
  | Loc_LocalsCountOutOfBound max_locals actual_locals =>
      Leaf ("too many locals: expected at most " ++ dec max_locals ++ "; got " ++ dec actual_locals)
  | Loc_DecodeLocalValType e => Message "failed decoding local Value type" (n_valtype e)
  end.
(** src/decode/sections/code.rs:29-48 *)
Definition n_code (e : DecodeCodeError) : node :=
  match e with
  | Code_DecodeFunctionSize e => Detached "failed decoding size of function code" (n_u32 e)
  | Code_DecodeLocalsVector e => Message "failed decoding locals vector" (n_list n_locals e)
  | Code_DecodeFunctionBody e => Message "failed decoding function body expression" (n_expr e)
  | Code_EntrySizeMismatch declared leftover consumed =>
      Leaf ("Code entry size mismatch: declared " ++ dec declared ++ " bytes; consumed " ++ dec consumed ++ " (leftover: " ++ dec leftover ++ ")")
  end.
Definition n_code_section (e : DecodeCodeSectionError) : node :=
  match e with CodeSec_DecodeList e => Message "failed decoding Code section" (n_list n_code e) end.
(** src/decode/sections/data.rs:24-40, 12-16 *)
Definition n_data (e : DecodeDataSegmentError) : node :=
  match e with
  | Dat_DecodeBitfield e => Detached "failed decoding bitfield" (n_u32 e)
  | Dat_InvalidBitfield n => Leaf ("invalid bitfield: expected 0 (passive), 1 or 2 (active); got " ++ dec n)
  | Dat_DecodeOffsetExpr e => Detached "failed decoding offset expression" (n_expr e)
  | Dat_DecodeInitVector e => Message "failed decoding init byte vector" (n_byte_vector e)
  | Dat_DecodeMemIdx e => Message "failed decoding Memory index" (n_memidx e)
  end.
(** src/decode/sections/data.rs:12-16 *)
Definition n_data_section (e : DecodeDataSectionError) : node :=
  match e with DataSec_DecodeList e => Message "failed decoding Data section" (n_list n_data e) end.

(** src/decode/module.rs:353-360 *)
Definition n_preamble (e : ParsePreambleError) : node :=
  match e with
  | Pre_Io e => Message "failed decoding preamble" (Io e)
  | Pre_Unexpected got => Leaf ("unexpected preamble: expected " ++ debug_bytes [x00; x61; x73; x6d; x01; x00; x00; x00] ++ "; got " ++ debug_bytes got)
  end.
(** src/decode/module.rs:76-78, 373-383 *)
Definition n_invalid_section_id (e : InvalidSectionIdError) : node :=
  match e with InvalidSectionId b => Leaf ("invalid section ID: expected one of " ++ section_markers ++ "; got " ++ hexb b) end.
Definition n_section_header (e : DecodeSectionHeaderError) : node :=
  match e with
  | Hdr_ReadSectionIdByte e => Message "failed reading section ID byte" (Io e)
  | Hdr_InvalidSectionId e => Message "invalid section ID" (n_invalid_section_id e)
  | Hdr_DecodeSectionSize e => Message "failed decoding section size" (n_u32 e)
  end.
(** src/decode/module.rs:121-204 *)
Definition n_module (e : DecodeModuleError) : node :=
  match e with
  | DM_ParsePreamble e => Transparent (n_preamble e)
  | DM_CodeFuncEntriesLenMismatch _ _ => Leaf "number of Code entries does not match number of Function entries"
  | DM_DataCountMismatch _ _ => Leaf "number of Data segments does not match the Data Count section"
  | DM_SectionOutOfOrder current previous =>
      Leaf ("out of order section: " ++ debug_section current ++ " cannot appear after " ++ debug_section previous)
  | DM_DuplicateSection k => Leaf ("encountered duplicate section: " ++ debug_section k)
  | DM_SectionSizeMismatch k declared got =>
      Leaf (debug_section k ++ " section size mismatch: declared " ++ dec declared ++ " bytes; got " ++ dec got)
  | DM_DataCountDatasLenMismatch datas_len data_count =>
      Leaf ("Data Count section does not match Datas length: declared " ++ dec data_count ++ "; got " ++ dec datas_len)
  | DM_DecodeDataCount => Leaf "failed decoding Data Count section"
  | DM_DataIndexWithoutDataCount => Leaf "Data index was present in Code section, but Data Count section is missing"
  | DM_DecodeSectionHeader e => Transparent (n_section_header e)
  | DM_DecodeCustomSection e => Transparent (n_custom_section e)
  | DM_DecodeTypeSection e => Transparent (n_type_section e)
  | DM_DecodeImportSection e => Transparent (n_import_section e)
  | DM_DecodeFunctionSection e => Transparent (n_function_section e)
  | DM_DecodeTableSection e => Transparent (n_table_section e)
  | DM_DecodeMemorySection e => Transparent (n_memory_section e)
  | DM_DecodeGlobalSection e => Transparent (n_global_section e)
  | DM_DecodeExportSection e => Transparent (n_export_section e)
  | DM_DecodeStartSection e => Transparent (n_start_section e)
  | DM_DecodeElementSection e => Transparent (n_elem_section e)
  | DM_DecodeDatacountSection e => Transparent (n_datacount_section e)
  | DM_DecodeCodeSection e => Transparent (n_code_section e)
  | DM_DecodeDataSection e => Transparent (n_data_section e)
  | DM_DecodeTagSection e => Transparent (n_tag_section e)
  end.
