(** Abstract syntax: the public data types of the crate (src/core).
    Simplifications, everywhere: u32/u64/u8-valued fields are [N], i32/i64 are
    [Z] (ranges are proved, not typed: C45_sound, and `representable` in Spec/Encode.v), f32/f64 are their
    bit patterns, [String] is its UTF-8 byte sequence, fixed-size arrays are
    lists, index newtypes are plain [N]. *)
From Verif Require Import Model.Prelude.

(** Rust u32 and u64 (used e.g. src/core/mod.rs, src/core/indices.rs:12), i32 and i64 (src/core/instruction.rs, constants) *)
Definition u32 := N.
Definition u64 := N.
Definition i32 := Z.
Definition i64 := Z.
(** f32/f64: IEEE bit pattern ([to_bits]) *)
Definition f32 := N.
Definition f64 := N.
(** String: its bytes *)
Definition rstring := list byte.

(** src/core/indices.rs:5-21 (define_index_type!) *)
Definition TypeIdx := u32.
Definition FuncIdx := u32.
Definition TableIdx := u32.
Definition MemIdx := u32.
Definition GlobalIdx := u32.
Definition ElemIdx := u32.
Definition DataIdx := u32.
Definition LocalIdx := u32.
Definition LabelIdx := u32.
Definition TagIdx := u32.

(** src/core/types/numtype.rs:16-21 *)
Inductive NumType := Int32 | Int64 | Float32 | Float64.
(** src/core/types/vectype.rs:15-17 *)
Inductive VecType := V128.
(** src/core/types/heaptype.rs:51-64 *)
Inductive AbsHeapType :=
| AH_Exn | AH_Array | AH_Struct | AH_I31 | AH_Eq | AH_Any | AH_Extern | AH_Func
| AH_None | AH_NoExtern | AH_NoFunc | AH_NoExn.
(** src/core/types/heaptype.rs:45-48 *)
Inductive HeapType := Ht (t : AbsHeapType) | HtIdx (x : u32).
(** src/core/types/reftype.rs:10-13 *)
Record RefType := mkRefType { nullable : bool; ht : HeapType }.
(** src/core/types/valtype.rs:12-16 *)
Inductive ValType := VT_Num (t : NumType) | VT_Vec (t : VecType) | VT_Ref (t : RefType).
(** src/core/types/resulttype.rs:8 *)
Definition ResultType := list ValType.
(** src/core/types/globaltype.rs:12-15 *)
Inductive Mut := Const | Var.
(** src/core/types/globaltype.rs:9 *)
Record GlobalType := mkGlobalType { gt_mut : Mut; gt_type : ValType }.
(** src/core/types/comptype.rs:31-34 *)
Inductive PackType := PT_I8 | PT_I16.
(** src/core/types/comptype.rs:25-28 *)
Inductive StorageType := ST_Val (t : ValType) | ST_Pack (t : PackType).
(** src/core/types/comptype.rs:22 *)
Record FieldType := mkFieldType { ft_mut : Mut; ft_type : StorageType }.
(** src/core/types/comptype.rs:10-17 *)
Inductive CompType :=
| CT_Struct (fs : list FieldType)
| CT_Array (f : FieldType)
| CT_Func (parameters results : list ValType).
(** src/core/types/rectype.rs:14-18 *)
Record SubType := mkSubType { is_final : bool; supertypes : list TypeIdx; comptype : CompType }.
(** src/core/types/rectype.rs:11; the newtype is dropped *)
Definition RecType := list SubType.
(** src/core/types/addrtype.rs:6-9 *)
Inductive AddrType := AT_I32 | AT_I64.
(** src/core/types/limits.rs:9-13 *)
Record Limits := mkLimits { address_type : AddrType; lim_min : u64; lim_max : option u64 }.
(** src/core/types/memtype.rs:12-14 *)
Record MemType := mkMemType { mt_limits : Limits }.
(** src/core/types/tabletype.rs:11-14 *)
Record TableType := mkTableType { tt_reftype : RefType; tt_limits : Limits }.
(** src/core/types/tagtype.rs:10 *)
Record TagType := mkTagType { tag_type : TypeIdx }.
(** src/core/types/externtype.rs:10-16 *)
Inductive ExternType :=
| ET_Func (x : TypeIdx) | ET_Table (t : TableType) | ET_Mem (t : MemType)
| ET_Global (t : GlobalType) | ET_Tag (t : TagType).

(** src/core/instruction.rs:526-530 *)
Record Memarg := mkMemarg { ma_mem : MemIdx; ma_align : u32; ma_offset : u64 }.
(** src/core/instruction.rs:537; the newtype is dropped *)
Definition LaneIdx := byte.
(** src/core/instruction.rs:540-544 *)
Inductive BlockType := BT_Empty | BT_T (t : ValType) | BT_I (x : u32).
(** src/core/instruction.rs:547-552 *)
Inductive Catch :=
| C_Catch (x : TagIdx) (l : LabelIdx) | C_CatchRef (x : TagIdx) (l : LabelIdx)
| C_CatchAll (l : LabelIdx) | C_CatchAllRef (l : LabelIdx).

(** src/core/instruction.rs:8-520 [Instruction], one constructor per variant,
    same order, same operand order *)
Inductive instr : Type :=
(* --- Control instructions (5.4.1) --- *)
| I_Unreachable
| I_Nop
| I_Block (_ : BlockType) (_ : (list instr))
| I_Loop (_ : BlockType) (_ : (list instr))
| I_If (_ : BlockType) (_ : (list instr)) (_ : (option (list instr)))
| I_Br (_ : LabelIdx)
| I_BrIf (_ : LabelIdx)
| I_BrTable (_ : (list LabelIdx)) (_ : LabelIdx)
| I_BrOnNull (_ : LabelIdx)
| I_BrOnNonNull (_ : LabelIdx)
| I_BrOnCast (_ : LabelIdx) (_ : RefType) (_ : RefType)
| I_BrOnCastFail (_ : LabelIdx) (_ : RefType) (_ : RefType)
| I_Call (_ : FuncIdx)
| I_CallRef (_ : TypeIdx)
| I_CallIndirect (_ : TableIdx) (_ : TypeIdx)
| I_Return
| I_ReturnCall (_ : FuncIdx)
| I_ReturnCallRef (_ : TypeIdx)
| I_ReturnCallIndirect (_ : TableIdx) (_ : TypeIdx)
| I_Throw (_ : TagIdx)
| I_ThrowRef
| I_TryTable (_ : BlockType) (_ : (list Catch)) (_ : (list instr))
(* --- Reference instructions (5.4.2) --- *)
| I_RefFunc (_ : FuncIdx)
| I_RefNull (_ : HeapType)
| I_RefIsNull
| I_RefAsNonNull
| I_RefEq
| I_RefTest (_ : RefType)
| I_RefCast (_ : RefType)
(* --- Aggregate instructions (5.4.7) --- *)
| I_StructNew (_ : TypeIdx)
| I_StructNewDefault (_ : TypeIdx)
| I_StructGet (_ : TypeIdx) (_ : u32)
| I_StructGetS (_ : TypeIdx) (_ : u32)
| I_StructGetU (_ : TypeIdx) (_ : u32)
| I_StructSet (_ : TypeIdx) (_ : u32)
| I_ArrayNew (_ : TypeIdx)
| I_ArrayNewDefault (_ : TypeIdx)
| I_ArrayNewFixed (_ : TypeIdx) (_ : u32)
| I_ArrayNewData (_ : TypeIdx) (_ : DataIdx)
| I_ArrayNewElem (_ : TypeIdx) (_ : ElemIdx)
| I_ArrayGet (_ : TypeIdx)
| I_ArrayGetS (_ : TypeIdx)
| I_ArrayGetU (_ : TypeIdx)
| I_ArraySet (_ : TypeIdx)
| I_ArrayLen
| I_ArrayFill (_ : TypeIdx)
| I_ArrayCopy (_ : TypeIdx) (_ : TypeIdx)
| I_ArrayInitData (_ : TypeIdx) (_ : DataIdx)
| I_ArrayInitElem (_ : TypeIdx) (_ : ElemIdx)
| I_AnyConvertExtern
| I_ExternConvertAny
| I_RefI31
| I_I31GetS
| I_I31GetU
(* --- Parametric instructions (5.4.3) --- *)
| I_Drop
| I_Select (_ : (option (list ValType)))
(* --- Variable instructions (5.4.4) --- *)
| I_LocalGet (_ : LocalIdx)
| I_LocalSet (_ : LocalIdx)
| I_LocalTee (_ : LocalIdx)
| I_GlobalGet (_ : GlobalIdx)
| I_GlobalSet (_ : GlobalIdx)
(* --- Table instructions (5.4.5) --- *)
| I_TableGet (_ : TableIdx)
| I_TableSet (_ : TableIdx)
| I_TableInit (_ : TableIdx) (_ : ElemIdx)
| I_ElemDrop (_ : ElemIdx)
| I_TableCopy (_ : TableIdx) (_ : TableIdx)
| I_TableGrow (_ : TableIdx)
| I_TableSize (_ : TableIdx)
| I_TableFill (_ : TableIdx)
(* --- Memory instructions (5.4.6) --- *)
| I_I32Load (_ : Memarg)
| I_I64Load (_ : Memarg)
| I_F32Load (_ : Memarg)
| I_F64Load (_ : Memarg)
| I_I32Load8s (_ : Memarg)
| I_I32Load8u (_ : Memarg)
| I_I32Load16s (_ : Memarg)
| I_I32Load16u (_ : Memarg)
| I_I64Load8s (_ : Memarg)
| I_I64Load8u (_ : Memarg)
| I_I64Load16s (_ : Memarg)
| I_I64Load16u (_ : Memarg)
| I_I64Load32s (_ : Memarg)
| I_I64Load32u (_ : Memarg)
| I_I32Store (_ : Memarg)
| I_I64Store (_ : Memarg)
| I_F32Store (_ : Memarg)
| I_F64Store (_ : Memarg)
| I_I32Store8 (_ : Memarg)
| I_I32Store16 (_ : Memarg)
| I_I64Store8 (_ : Memarg)
| I_I64Store16 (_ : Memarg)
| I_I64Store32 (_ : Memarg)
| I_MemorySize (_ : MemIdx)
| I_MemoryGrow (_ : MemIdx)
| I_MemoryInit (_ : MemIdx) (_ : DataIdx)
| I_DataDrop (_ : DataIdx)
| I_MemoryCopy (_ : MemIdx) (_ : MemIdx)
| I_MemoryFill (_ : MemIdx)
(* --- Numeric constants (5.4.7) --- *)
| I_I32Const (_ : i32)
| I_I64Const (_ : i64)
| I_F32Const (_ : f32)
| I_F64Const (_ : f64)
| I_I32Eqz
| I_I32Eq
| I_I32Ne
| I_I32LtS
| I_I32LtU
| I_I32GtS
| I_I32GtU
| I_I32LeS
| I_I32LeU
| I_I32GeS
| I_I32GeU
| I_I64Eqz
| I_I64Eq
| I_I64Ne
| I_I64LtS
| I_I64LtU
| I_I64GtS
| I_I64GtU
| I_I64LeS
| I_I64LeU
| I_I64GeS
| I_I64GeU
| I_F32Eq
| I_F32Ne
| I_F32Lt
| I_F32Gt
| I_F32Le
| I_F32Ge
| I_F64Eq
| I_F64Ne
| I_F64Lt
| I_F64Gt
| I_F64Le
| I_F64Ge
| I_I32Clz
| I_I32Ctz
| I_I32Popcnt
| I_I32Add
| I_I32Sub
| I_I32Mul
| I_I32DivS
| I_I32DivU
| I_I32RemS
| I_I32RemU
| I_I32And
| I_I32Or
| I_I32Xor
| I_I32Shl
| I_I32ShrS
| I_I32ShrU
| I_I32Rotl
| I_I32Rotr
| I_I64Clz
| I_I64Ctz
| I_I64Popcnt
| I_I64Add
| I_I64Sub
| I_I64Mul
| I_I64DivS
| I_I64DivU
| I_I64RemS
| I_I64RemU
| I_I64And
| I_I64Or
| I_I64Xor
| I_I64Shl
| I_I64ShrS
| I_I64ShrU
| I_I64Rotl
| I_I64Rotr
| I_F32Abs
| I_F32Neg
| I_F32Ceil
| I_F32Floor
| I_F32Trunc
| I_F32Nearest
| I_F32Sqrt
| I_F32Add
| I_F32Sub
| I_F32Mul
| I_F32Div
| I_F32Min
| I_F32Max
| I_F32Copysign
| I_F64Abs
| I_F64Neg
| I_F64Ceil
| I_F64Floor
| I_F64Trunc
| I_F64Nearest
| I_F64Sqrt
| I_F64Add
| I_F64Sub
| I_F64Mul
| I_F64Div
| I_F64Min
| I_F64Max
| I_F64Copysign
| I_I32WrapI64
| I_I32TruncF32S
| I_I32TruncF32U
| I_I32TruncF64S
| I_I32TruncF64U
| I_I64ExtendI32S
| I_I64ExtendI32U
| I_I64TruncF32S
| I_I64TruncF32U
| I_I64TruncF64S
| I_I64TruncF64U
| I_F32ConvertI32S
| I_F32ConvertI32U
| I_F32ConvertI64S
| I_F32ConvertI64U
| I_F32DemoteF64
| I_F64ConvertI32S
| I_F64ConvertI32U
| I_F64ConvertI64S
| I_F64ConvertI64U
| I_F64PromoteF32
| I_I32ReinterpretF32
| I_I64ReinterpretF64
| I_F32ReinterpretI32
| I_F64ReinterpretI64
| I_I32Extend8S
| I_I32Extend16S
| I_I64Extend8S
| I_I64Extend16S
| I_I64Extend32S
| I_I32TruncSatF32S
| I_I32TruncSatF32U
| I_I32TruncSatF64S
| I_I32TruncSatF64U
| I_I64TruncSatF32S
| I_I64TruncSatF32U
| I_I64TruncSatF64S
| I_I64TruncSatF64U
(* --- Vector instructions (5.4.8) --- *)
| I_V128Load (_ : Memarg)
| I_V128Load8x8S (_ : Memarg)
| I_V128Load8x8U (_ : Memarg)
| I_V128Load16x4S (_ : Memarg)
| I_V128Load16x4U (_ : Memarg)
| I_V128Load32x2S (_ : Memarg)
| I_V128Load32x2U (_ : Memarg)
| I_V128Load8Splat (_ : Memarg)
| I_V128Load16Splat (_ : Memarg)
| I_V128Load32Splat (_ : Memarg)
| I_V128Load64Splat (_ : Memarg)
| I_V128Load32Zero (_ : Memarg)
| I_V128Load64Zero (_ : Memarg)
| I_V128Store (_ : Memarg)
| I_V128Load8Lane (_ : Memarg) (_ : LaneIdx)
| I_V128Load16Lane (_ : Memarg) (_ : LaneIdx)
| I_V128Load32Lane (_ : Memarg) (_ : LaneIdx)
| I_V128Load64Lane (_ : Memarg) (_ : LaneIdx)
| I_V128Store8Lane (_ : Memarg) (_ : LaneIdx)
| I_V128Store16Lane (_ : Memarg) (_ : LaneIdx)
| I_V128Store32Lane (_ : Memarg) (_ : LaneIdx)
| I_V128Store64Lane (_ : Memarg) (_ : LaneIdx)
| I_V128Const (_ : (list byte))
| I_I8x16Shuffle (_ : (list LaneIdx))
| I_I8x16ExtractLaneS (_ : LaneIdx)
| I_I8x16ExtractLaneU (_ : LaneIdx)
| I_I8x16ReplaceLane (_ : LaneIdx)
| I_I16x8ExtractLaneS (_ : LaneIdx)
| I_I16x8ExtractLaneU (_ : LaneIdx)
| I_I16x8ReplaceLane (_ : LaneIdx)
| I_I32x4ExtractLane (_ : LaneIdx)
| I_I32x4ReplaceLane (_ : LaneIdx)
| I_I64x2ExtractLane (_ : LaneIdx)
| I_I64x2ReplaceLane (_ : LaneIdx)
| I_F32x4ExtractLane (_ : LaneIdx)
| I_F32x4ReplaceLane (_ : LaneIdx)
| I_F64x2ExtractLane (_ : LaneIdx)
| I_F64x2ReplaceLane (_ : LaneIdx)
| I_I8x16Swizzle
| I_I8x16RelaxedSwizzle
| I_I8x16Splat
| I_I16x8Splat
| I_I32x4Splat
| I_I64x2Splat
| I_F32x4Splat
| I_F64x2Splat
| I_I8x16Eq
| I_I8x16Ne
| I_I8x16LtS
| I_I8x16LtU
| I_I8x16GtS
| I_I8x16GtU
| I_I8x16LeS
| I_I8x16LeU
| I_I8x16GeS
| I_I8x16GeU
| I_I16x8Eq
| I_I16x8Ne
| I_I16x8LtS
| I_I16x8LtU
| I_I16x8GtS
| I_I16x8GtU
| I_I16x8LeS
| I_I16x8LeU
| I_I16x8GeS
| I_I16x8GeU
| I_I32x4Eq
| I_I32x4Ne
| I_I32x4LtS
| I_I32x4LtU
| I_I32x4GtS
| I_I32x4GtU
| I_I32x4LeS
| I_I32x4LeU
| I_I32x4GeS
| I_I32x4GeU
| I_I64x2Eq
| I_I64x2Ne
| I_I64x2LtS
| I_I64x2GtS
| I_I64x2LeS
| I_I64x2GeS
| I_F32x4Eq
| I_F32x4Ne
| I_F32x4Lt
| I_F32x4Gt
| I_F32x4Le
| I_F32x4Ge
| I_F64x2Eq
| I_F64x2Ne
| I_F64x2Lt
| I_F64x2Gt
| I_F64x2Le
| I_F64x2Ge
| I_V128Not
| I_V128And
| I_V128AndNot
| I_V128Or
| I_V128Xor
| I_V128Bitselect
| I_I8x16RelaxedLaneSelect
| I_I16x8RelaxedLaneSelect
| I_I32x4RelaxedLaneSelect
| I_I64x2RelaxedLaneSelect
| I_V128AnyTrue
| I_I8x16Abs
| I_I8x16Neg
| I_I8x16Popcnt
| I_I8x16AllTrue
| I_I8x16Bitmask
| I_I8x16NarrowI16x8S
| I_I8x16NarrowI16x8U
| I_I8x16Shl
| I_I8x16ShrS
| I_I8x16ShrU
| I_I8x16Add
| I_I8x16AddSatS
| I_I8x16AddSatU
| I_I8x16Sub
| I_I8x16SubSatS
| I_I8x16SubSatU
| I_I8x16MinS
| I_I8x16MinU
| I_I8x16MaxS
| I_I8x16MaxU
| I_I8x16AvgrU
| I_I16x8ExtaddPairwiseI8x16S
| I_I16x8ExtaddPairwiseI8x16U
| I_I16x8Abs
| I_I16x8Neg
| I_I16x8Q15MulrSatS
| I_I16x8AllTrue
| I_I16x8Bitmask
| I_I16x8NarrowI32x4S
| I_I16x8NarrowI32x4U
| I_I16x8ExtendLowI8x16S
| I_I16x8ExtendHighI8x16S
| I_I16x8ExtendLowI8x16U
| I_I16x8ExtendHighI8x16U
| I_I16x8Shl
| I_I16x8ShrS
| I_I16x8ShrU
| I_I16x8Add
| I_I16x8AddSatS
| I_I16x8AddSatU
| I_I16x8Sub
| I_I16x8SubSatS
| I_I16x8SubSatU
| I_I16x8Mul
| I_I16x8MinS
| I_I16x8MinU
| I_I16x8MaxS
| I_I16x8MaxU
| I_I16x8AvgrU
| I_I16x8ExtmulLowI8x16S
| I_I16x8ExtmulHighI8x16S
| I_I16x8ExtmulLowI8x16U
| I_I16x8ExtmulHighI8x16U
| I_I16x8RelaxedQ15MulrS
| I_I16x8RelaxedDotSI8x16
| I_I32x4RelaxedDotAddSI16x8
| I_I32x4ExtaddPairwiseI16x8S
| I_I32x4ExtaddPairwiseI16x8U
| I_I32x4Abs
| I_I32x4Neg
| I_I32x4AllTrue
| I_I32x4Bitmask
| I_I32x4ExtendLowI16x8S
| I_I32x4ExtendHighI16x8S
| I_I32x4ExtendLowI16x8U
| I_I32x4ExtendHighI16x8U
| I_I32x4Shl
| I_I32x4ShrS
| I_I32x4ShrU
| I_I32x4Add
| I_I32x4Sub
| I_I32x4Mul
| I_I32x4MinS
| I_I32x4MinU
| I_I32x4MaxS
| I_I32x4MaxU
| I_I32x4DotI16x8S
| I_I32x4ExtmulLowI16x8S
| I_I32x4ExtmulHighI16x8S
| I_I32x4ExtmulLowI16x8U
| I_I32x4ExtmulHighI16x8U
| I_I64x2Abs
| I_I64x2Neg
| I_I64x2AllTrue
| I_I64x2Bitmask
| I_I64x2ExtendLowI32x4S
| I_I64x2ExtendHighI32x4S
| I_I64x2ExtendLowI32x4U
| I_I64x2ExtendHighI32x4U
| I_I64x2Shl
| I_I64x2ShrS
| I_I64x2ShrU
| I_I64x2Add
| I_I64x2Sub
| I_I64x2Mul
| I_I64x2ExtmulLowI32x4S
| I_I64x2ExtmulHighI32x4S
| I_I64x2ExtmulLowI32x4U
| I_I64x2ExtmulHighI32x4U
| I_F32x4Ceil
| I_F32x4Floor
| I_F32x4Trunc
| I_F32x4Nearest
| I_F32x4Abs
| I_F32x4Neg
| I_F32x4Sqrt
| I_F32x4Add
| I_F32x4Sub
| I_F32x4Mul
| I_F32x4Div
| I_F32x4Min
| I_F32x4Max
| I_F32x4PMin
| I_F32x4PMax
| I_F32x4RelaxedMin
| I_F32x4RelaxedMax
| I_F32x4RelaxedMAdd
| I_F32x4RelaxedNMAdd
| I_F64x2Ceil
| I_F64x2Floor
| I_F64x2Trunc
| I_F64x2Nearest
| I_F64x2Abs
| I_F64x2Neg
| I_F64x2Sqrt
| I_F64x2Add
| I_F64x2Sub
| I_F64x2Mul
| I_F64x2Div
| I_F64x2Min
| I_F64x2Max
| I_F64x2PMin
| I_F64x2PMax
| I_F64x2RelaxedMin
| I_F64x2RelaxedMax
| I_F64x2RelaxedMAdd
| I_F64x2RelaxedNMAdd
| I_I32x4TruncSatF32x4S
| I_I32x4TruncSatF32x4U
| I_F32x4ConvertI32x4S
| I_F32x4ConvertI32x4U
| I_I32x4TruncSatF64x2SZero
| I_I32x4TruncSatF64x2UZero
| I_I32x4RelaxedTruncF32x4S
| I_I32x4RelaxedTruncF32x4U
| I_I32x4RelaxedTruncF64x2SZero
| I_I32x4RelaxedTruncF64x2UZero
| I_F64x2ConvertLowI32x4S
| I_F64x2ConvertLowI32x4U
| I_F32x4DemoteF64x2Zero
| I_F64x2PromoteLowF32x4.

(** src/core/mod.rs:20 *)
Definition Expr := list instr.

(** src/core/mod.rs:34-38 *)
Record Import := mkImport { im_module : rstring; im_item : rstring; im_type : ExternType }.
(** src/core/mod.rs:54-60 *)
Inductive ExternIdx :=
| EI_Func (x : FuncIdx) | EI_Global (x : GlobalIdx) | EI_Table (x : TableIdx)
| EI_Mem (x : MemIdx) | EI_Tag (x : TagIdx).
(** src/core/mod.rs:48-51 *)
Record Export := mkExport { ex_name : rstring; ex_idx : ExternIdx }.
(** src/core/mod.rs:70-85 *)
Record Func := mkFunc { f_type : TypeIdx; f_locals : list ValType; f_body : Expr }.
(** src/core/mod.rs:96-99 *)
Record Global := mkGlobal { g_type : GlobalType; g_init : Expr }.
(** src/core/mod.rs:119-122 *)
Inductive DataMode := DM_Passive | DM_Active (memory : MemIdx) (offset : Expr).
(** src/core/mod.rs:113-116 *)
Record Data := mkData { d_init : list byte; d_mode : DataMode }.
(** src/core/mod.rs:147-151 *)
Inductive ElemMode := EM_Passive | EM_Active (table : TableIdx) (offset : Expr) | EM_Declare.
(** src/core/mod.rs:140-144 *)
Record Elem := mkElem { e_type : RefType; e_init : list Expr; e_mode : ElemMode }.
(** src/core/mod.rs:163 *)
Record Table := mkTable { t_type : TableType; t_init : Expr }.
(** src/core/custom_section.rs:13-16 *)
Record CustomSection := mkCustom { cs_name : rstring; cs_contents : list byte }.

(** src/core/module.rs:172-187, in declaration order (this is the derived order) *)
Inductive SectionKind :=
| SK_Custom | SK_Type | SK_Import | SK_Function | SK_Table | SK_Memory | SK_Tag
| SK_Global | SK_Export | SK_Start | SK_Element | SK_DataCount | SK_Code | SK_Data.
(** src/core/module.rs:166-169 *)
Record SectionHeader := mkHeader { sh_kind : SectionKind; sh_size : u32 }.

(** src/core/module.rs:15-159 *)
Record Module_ := mkModule {
  version : list byte;
  parsed_section_kinds : list SectionKind;
  section_headers : list SectionHeader;
  custom_sections : list CustomSection;
  types : list RecType;
  funcs : list Func;
  tables : list Table;
  mems : list MemType;
  globals : list Global;
  elems : list Elem;
  data_count : option u32;
  datas : list Data;
  start : option FuncIdx;
  imports : list Import;
  exports : list Export;
  tags : list TagType
}.
