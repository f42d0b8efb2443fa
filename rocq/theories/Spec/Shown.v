(** Specification: what [{:#?}] prints, from the definitions of the public types
    in /repo/src, as #[derive(Debug)] reads them: the name of the struct or enum
    variant, with its fields in order.  Written by a script that parses the Rust
    definitions (not from Model/Debug.v); [dtree] only serves to hold names and
    fields.

    Not said here: the texts of floats, strings, io::Error and Utf8Error (class
    [Texts]).  Numbers are decimal ([dec], [decZ]; see C63_numbers). *)
From Verif Require Import Model.Prelude Model.Io Model.Ast Model.Errors Model.Display Model.Debug.
From Coq Require Import String Strings.Byte.
Local Open Scope string_scope.

Section Shown.
Context {T : Texts}.

(** src/core/custom_section.rs *)
Definition show_CustomSection (x : CustomSection) : dtree :=
  DStruct "CustomSection" [("name", DAtom (debug_str (cs_name x))); ("contents", DList (map (fun y1 => DAtom (dec (Byte.to_N y1))) (cs_contents x)))].
(** src/core/types/numtype.rs *)
Definition show_NumType (e : NumType) : dtree :=
  match e with
  | Int32 => DAtom "Int32"
  | Int64 => DAtom "Int64"
  | Float32 => DAtom "Float32"
  | Float64 => DAtom "Float64"
  end.
(** src/core/types/heaptype.rs *)
Definition show_AbsHeapType (e : AbsHeapType) : dtree :=
  match e with
  | AH_Exn => DAtom "Exn"
  | AH_Array => DAtom "Array"
  | AH_Struct => DAtom "Struct"
  | AH_I31 => DAtom "I31"
  | AH_Eq => DAtom "Eq"
  | AH_Any => DAtom "Any"
  | AH_Extern => DAtom "Extern"
  | AH_Func => DAtom "Func"
  | AH_None => DAtom "None"
  | AH_NoExtern => DAtom "NoExtern"
  | AH_NoFunc => DAtom "NoFunc"
  | AH_NoExn => DAtom "NoExn"
  end.
(** src/core/types/heaptype.rs *)
Definition show_HeapType (e : HeapType) : dtree :=
  match e with
  | Ht x0 => DTuple "Ht" [show_AbsHeapType x0]
  | HtIdx x0 => DTuple "TypeIdx" [DAtom (dec x0)]
  end.
(** src/core/types/reftype.rs *)
Definition show_RefType (x : RefType) : dtree :=
  DStruct "RefType" [("nullable", DAtom (if (nullable x) then "true" else "false")); ("ht", show_HeapType (ht x))].
(** src/core/types/vectype.rs *)
Definition show_VecType (e : VecType) : dtree :=
  match e with
  | V128 => DAtom "V128"
  end.
(** src/core/types/valtype.rs *)
Definition show_ValType (e : ValType) : dtree :=
  match e with
  | VT_Num x0 => DTuple "Num" [show_NumType x0]
  | VT_Vec x0 => DTuple "Vec" [show_VecType x0]
  | VT_Ref x0 => DTuple "Ref" [show_RefType x0]
  end.
(** src/core/instruction.rs *)
Definition show_BlockType (e : BlockType) : dtree :=
  match e with
  | BT_Empty => DAtom "Empty"
  | BT_T x0 => DTuple "T" [show_ValType x0]
  | BT_I x0 => DTuple "I" [DAtom (dec x0)]
  end.
(** src/core/instruction.rs *)
Definition show_Catch (e : Catch) : dtree :=
  match e with
  | C_Catch x0 x1 => DTuple "Catch" [DTuple "TagIdx" [DAtom (dec x0)]; DTuple "LabelIdx" [DAtom (dec x1)]]
  | C_CatchRef x0 x1 => DTuple "CatchRef" [DTuple "TagIdx" [DAtom (dec x0)]; DTuple "LabelIdx" [DAtom (dec x1)]]
  | C_CatchAll x0 => DTuple "CatchAll" [DTuple "LabelIdx" [DAtom (dec x0)]]
  | C_CatchAllRef x0 => DTuple "CatchAllRef" [DTuple "LabelIdx" [DAtom (dec x0)]]
  end.
(** src/core/instruction.rs *)
Definition show_LaneIdx (x : LaneIdx) : dtree := DTuple "LaneIdx" [DAtom (dec (Byte.to_N x))].
(** src/core/instruction.rs *)
Definition show_Memarg (x : Memarg) : dtree :=
  DStruct "Memarg" [("mem_idx", DTuple "MemIdx" [DAtom (dec (ma_mem x))]); ("align", DAtom (dec (ma_align x))); ("offset", DAtom (dec (ma_offset x)))].
(** src/core/instruction.rs *)
Fixpoint show_Instruction (e : instr) : dtree :=
  match e with
  | I_Unreachable => DAtom "Unreachable"
  | I_Nop => DAtom "Nop"
  | I_Block x0 x1 => DTuple "Block" [show_BlockType x0; DList (map (fun y1 => show_Instruction y1) x1)]
  | I_Loop x0 x1 => DTuple "Loop" [show_BlockType x0; DList (map (fun y2 => show_Instruction y2) x1)]
  | I_If x0 x1 x2 => DTuple "If" [show_BlockType x0; DList (map (fun y3 => show_Instruction y3) x1); match x2 with None => DAtom "None" | Some y4 => DTuple "Some" [DList (map (fun y5 => show_Instruction y5) y4)] end]
  | I_Br x0 => DTuple "Br" [DTuple "LabelIdx" [DAtom (dec x0)]]
  | I_BrIf x0 => DTuple "BrIf" [DTuple "LabelIdx" [DAtom (dec x0)]]
  | I_BrTable x0 x1 => DTuple "BrTable" [DList (map (fun y6 => DTuple "LabelIdx" [DAtom (dec y6)]) x0); DTuple "LabelIdx" [DAtom (dec x1)]]
  | I_BrOnNull x0 => DTuple "BrOnNull" [DTuple "LabelIdx" [DAtom (dec x0)]]
  | I_BrOnNonNull x0 => DTuple "BrOnNonNull" [DTuple "LabelIdx" [DAtom (dec x0)]]
  | I_BrOnCast x0 x1 x2 => DTuple "BrOnCast" [DTuple "LabelIdx" [DAtom (dec x0)]; show_RefType x1; show_RefType x2]
  | I_BrOnCastFail x0 x1 x2 => DTuple "BrOnCastFail" [DTuple "LabelIdx" [DAtom (dec x0)]; show_RefType x1; show_RefType x2]
  | I_Call x0 => DTuple "Call" [DTuple "FuncIdx" [DAtom (dec x0)]]
  | I_CallRef x0 => DTuple "CallRef" [DTuple "TypeIdx" [DAtom (dec x0)]]
  | I_CallIndirect x0 x1 => DTuple "CallIndirect" [DTuple "TableIdx" [DAtom (dec x0)]; DTuple "TypeIdx" [DAtom (dec x1)]]
  | I_Return => DAtom "Return"
  | I_ReturnCall x0 => DTuple "ReturnCall" [DTuple "FuncIdx" [DAtom (dec x0)]]
  | I_ReturnCallRef x0 => DTuple "ReturnCallRef" [DTuple "TypeIdx" [DAtom (dec x0)]]
  | I_ReturnCallIndirect x0 x1 => DTuple "ReturnCallIndirect" [DTuple "TableIdx" [DAtom (dec x0)]; DTuple "TypeIdx" [DAtom (dec x1)]]
  | I_Throw x0 => DTuple "Throw" [DTuple "TagIdx" [DAtom (dec x0)]]
  | I_ThrowRef => DAtom "ThrowRef"
  | I_TryTable x0 x1 x2 => DTuple "TryTable" [show_BlockType x0; DList (map (fun y7 => show_Catch y7) x1); DList (map (fun y8 => show_Instruction y8) x2)]
  | I_RefFunc x0 => DTuple "RefFunc" [DTuple "FuncIdx" [DAtom (dec x0)]]
  | I_RefNull x0 => DTuple "RefNull" [show_HeapType x0]
  | I_RefIsNull => DAtom "RefIsNull"
  | I_RefAsNonNull => DAtom "RefAsNonNull"
  | I_RefEq => DAtom "RefEq"
  | I_RefTest x0 => DTuple "RefTest" [show_RefType x0]
  | I_RefCast x0 => DTuple "RefCast" [show_RefType x0]
  | I_StructNew x0 => DTuple "StructNew" [DTuple "TypeIdx" [DAtom (dec x0)]]
  | I_StructNewDefault x0 => DTuple "StructNewDefault" [DTuple "TypeIdx" [DAtom (dec x0)]]
  | I_StructGet x0 x1 => DTuple "StructGet" [DTuple "TypeIdx" [DAtom (dec x0)]; DAtom (dec x1)]
  | I_StructGetS x0 x1 => DTuple "StructGetS" [DTuple "TypeIdx" [DAtom (dec x0)]; DAtom (dec x1)]
  | I_StructGetU x0 x1 => DTuple "StructGetU" [DTuple "TypeIdx" [DAtom (dec x0)]; DAtom (dec x1)]
  | I_StructSet x0 x1 => DTuple "StructSet" [DTuple "TypeIdx" [DAtom (dec x0)]; DAtom (dec x1)]
  | I_ArrayNew x0 => DTuple "ArrayNew" [DTuple "TypeIdx" [DAtom (dec x0)]]
  | I_ArrayNewDefault x0 => DTuple "ArrayNewDefault" [DTuple "TypeIdx" [DAtom (dec x0)]]
  | I_ArrayNewFixed x0 x1 => DTuple "ArrayNewFixed" [DTuple "TypeIdx" [DAtom (dec x0)]; DAtom (dec x1)]
  | I_ArrayNewData x0 x1 => DTuple "ArrayNewData" [DTuple "TypeIdx" [DAtom (dec x0)]; DTuple "DataIdx" [DAtom (dec x1)]]
  | I_ArrayNewElem x0 x1 => DTuple "ArrayNewElem" [DTuple "TypeIdx" [DAtom (dec x0)]; DTuple "ElemIdx" [DAtom (dec x1)]]
  | I_ArrayGet x0 => DTuple "ArrayGet" [DTuple "TypeIdx" [DAtom (dec x0)]]
  | I_ArrayGetS x0 => DTuple "ArrayGetS" [DTuple "TypeIdx" [DAtom (dec x0)]]
  | I_ArrayGetU x0 => DTuple "ArrayGetU" [DTuple "TypeIdx" [DAtom (dec x0)]]
  | I_ArraySet x0 => DTuple "ArraySet" [DTuple "TypeIdx" [DAtom (dec x0)]]
  | I_ArrayLen => DAtom "ArrayLen"
  | I_ArrayFill x0 => DTuple "ArrayFill" [DTuple "TypeIdx" [DAtom (dec x0)]]
  | I_ArrayCopy x0 x1 => DTuple "ArrayCopy" [DTuple "TypeIdx" [DAtom (dec x0)]; DTuple "TypeIdx" [DAtom (dec x1)]]
  | I_ArrayInitData x0 x1 => DTuple "ArrayInitData" [DTuple "TypeIdx" [DAtom (dec x0)]; DTuple "DataIdx" [DAtom (dec x1)]]
  | I_ArrayInitElem x0 x1 => DTuple "ArrayInitElem" [DTuple "TypeIdx" [DAtom (dec x0)]; DTuple "ElemIdx" [DAtom (dec x1)]]
  | I_AnyConvertExtern => DAtom "AnyConvertExtern"
  | I_ExternConvertAny => DAtom "ExternConvertAny"
  | I_RefI31 => DAtom "RefI31"
  | I_I31GetS => DAtom "I31GetS"
  | I_I31GetU => DAtom "I31GetU"
  | I_Drop => DAtom "Drop"
  | I_Select x0 => DTuple "Select" [match x0 with None => DAtom "None" | Some y9 => DTuple "Some" [DList (map (fun y10 => show_ValType y10) y9)] end]
  | I_LocalGet x0 => DTuple "LocalGet" [DTuple "LocalIdx" [DAtom (dec x0)]]
  | I_LocalSet x0 => DTuple "LocalSet" [DTuple "LocalIdx" [DAtom (dec x0)]]
  | I_LocalTee x0 => DTuple "LocalTee" [DTuple "LocalIdx" [DAtom (dec x0)]]
  | I_GlobalGet x0 => DTuple "GlobalGet" [DTuple "GlobalIdx" [DAtom (dec x0)]]
  | I_GlobalSet x0 => DTuple "GlobalSet" [DTuple "GlobalIdx" [DAtom (dec x0)]]
  | I_TableGet x0 => DTuple "TableGet" [DTuple "TableIdx" [DAtom (dec x0)]]
  | I_TableSet x0 => DTuple "TableSet" [DTuple "TableIdx" [DAtom (dec x0)]]
  | I_TableInit x0 x1 => DTuple "TableInit" [DTuple "TableIdx" [DAtom (dec x0)]; DTuple "ElemIdx" [DAtom (dec x1)]]
  | I_ElemDrop x0 => DTuple "ElemDrop" [DTuple "ElemIdx" [DAtom (dec x0)]]
  | I_TableCopy x0 x1 => DTuple "TableCopy" [DTuple "TableIdx" [DAtom (dec x0)]; DTuple "TableIdx" [DAtom (dec x1)]]
  | I_TableGrow x0 => DTuple "TableGrow" [DTuple "TableIdx" [DAtom (dec x0)]]
  | I_TableSize x0 => DTuple "TableSize" [DTuple "TableIdx" [DAtom (dec x0)]]
  | I_TableFill x0 => DTuple "TableFill" [DTuple "TableIdx" [DAtom (dec x0)]]
  | I_I32Load x0 => DTuple "I32Load" [show_Memarg x0]
  | I_I64Load x0 => DTuple "I64Load" [show_Memarg x0]
  | I_F32Load x0 => DTuple "F32Load" [show_Memarg x0]
  | I_F64Load x0 => DTuple "F64Load" [show_Memarg x0]
  | I_I32Load8s x0 => DTuple "I32Load8s" [show_Memarg x0]
  | I_I32Load8u x0 => DTuple "I32Load8u" [show_Memarg x0]
  | I_I32Load16s x0 => DTuple "I32Load16s" [show_Memarg x0]
  | I_I32Load16u x0 => DTuple "I32Load16u" [show_Memarg x0]
  | I_I64Load8s x0 => DTuple "I64Load8s" [show_Memarg x0]
  | I_I64Load8u x0 => DTuple "I64Load8u" [show_Memarg x0]
  | I_I64Load16s x0 => DTuple "I64Load16s" [show_Memarg x0]
  | I_I64Load16u x0 => DTuple "I64Load16u" [show_Memarg x0]
  | I_I64Load32s x0 => DTuple "I64Load32s" [show_Memarg x0]
  | I_I64Load32u x0 => DTuple "I64Load32u" [show_Memarg x0]
  | I_I32Store x0 => DTuple "I32Store" [show_Memarg x0]
  | I_I64Store x0 => DTuple "I64Store" [show_Memarg x0]
  | I_F32Store x0 => DTuple "F32Store" [show_Memarg x0]
  | I_F64Store x0 => DTuple "F64Store" [show_Memarg x0]
  | I_I32Store8 x0 => DTuple "I32Store8" [show_Memarg x0]
  | I_I32Store16 x0 => DTuple "I32Store16" [show_Memarg x0]
  | I_I64Store8 x0 => DTuple "I64Store8" [show_Memarg x0]
  | I_I64Store16 x0 => DTuple "I64Store16" [show_Memarg x0]
  | I_I64Store32 x0 => DTuple "I64Store32" [show_Memarg x0]
  | I_MemorySize x0 => DTuple "MemorySize" [DTuple "MemIdx" [DAtom (dec x0)]]
  | I_MemoryGrow x0 => DTuple "MemoryGrow" [DTuple "MemIdx" [DAtom (dec x0)]]
  | I_MemoryInit x0 x1 => DTuple "MemoryInit" [DTuple "MemIdx" [DAtom (dec x0)]; DTuple "DataIdx" [DAtom (dec x1)]]
  | I_DataDrop x0 => DTuple "DataDrop" [DTuple "DataIdx" [DAtom (dec x0)]]
  | I_MemoryCopy x0 x1 => DTuple "MemoryCopy" [DTuple "MemIdx" [DAtom (dec x0)]; DTuple "MemIdx" [DAtom (dec x1)]]
  | I_MemoryFill x0 => DTuple "MemoryFill" [DTuple "MemIdx" [DAtom (dec x0)]]
  | I_I32Const x0 => DTuple "I32Const" [DAtom (decZ x0)]
  | I_I64Const x0 => DTuple "I64Const" [DAtom (decZ x0)]
  | I_F32Const x0 => DTuple "F32Const" [DAtom (debug_f32 x0)]
  | I_F64Const x0 => DTuple "F64Const" [DAtom (debug_f64 x0)]
  | I_I32Eqz => DAtom "I32Eqz"
  | I_I32Eq => DAtom "I32Eq"
  | I_I32Ne => DAtom "I32Ne"
  | I_I32LtS => DAtom "I32LtS"
  | I_I32LtU => DAtom "I32LtU"
  | I_I32GtS => DAtom "I32GtS"
  | I_I32GtU => DAtom "I32GtU"
  | I_I32LeS => DAtom "I32LeS"
  | I_I32LeU => DAtom "I32LeU"
  | I_I32GeS => DAtom "I32GeS"
  | I_I32GeU => DAtom "I32GeU"
  | I_I64Eqz => DAtom "I64Eqz"
  | I_I64Eq => DAtom "I64Eq"
  | I_I64Ne => DAtom "I64Ne"
  | I_I64LtS => DAtom "I64LtS"
  | I_I64LtU => DAtom "I64LtU"
  | I_I64GtS => DAtom "I64GtS"
  | I_I64GtU => DAtom "I64GtU"
  | I_I64LeS => DAtom "I64LeS"
  | I_I64LeU => DAtom "I64LeU"
  | I_I64GeS => DAtom "I64GeS"
  | I_I64GeU => DAtom "I64GeU"
  | I_F32Eq => DAtom "F32Eq"
  | I_F32Ne => DAtom "F32Ne"
  | I_F32Lt => DAtom "F32Lt"
  | I_F32Gt => DAtom "F32Gt"
  | I_F32Le => DAtom "F32Le"
  | I_F32Ge => DAtom "F32Ge"
  | I_F64Eq => DAtom "F64Eq"
  | I_F64Ne => DAtom "F64Ne"
  | I_F64Lt => DAtom "F64Lt"
  | I_F64Gt => DAtom "F64Gt"
  | I_F64Le => DAtom "F64Le"
  | I_F64Ge => DAtom "F64Ge"
  | I_I32Clz => DAtom "I32Clz"
  | I_I32Ctz => DAtom "I32Ctz"
  | I_I32Popcnt => DAtom "I32Popcnt"
  | I_I32Add => DAtom "I32Add"
  | I_I32Sub => DAtom "I32Sub"
  | I_I32Mul => DAtom "I32Mul"
  | I_I32DivS => DAtom "I32DivS"
  | I_I32DivU => DAtom "I32DivU"
  | I_I32RemS => DAtom "I32RemS"
  | I_I32RemU => DAtom "I32RemU"
  | I_I32And => DAtom "I32And"
  | I_I32Or => DAtom "I32Or"
  | I_I32Xor => DAtom "I32Xor"
  | I_I32Shl => DAtom "I32Shl"
  | I_I32ShrS => DAtom "I32ShrS"
  | I_I32ShrU => DAtom "I32ShrU"
  | I_I32Rotl => DAtom "I32Rotl"
  | I_I32Rotr => DAtom "I32Rotr"
  | I_I64Clz => DAtom "I64Clz"
  | I_I64Ctz => DAtom "I64Ctz"
  | I_I64Popcnt => DAtom "I64Popcnt"
  | I_I64Add => DAtom "I64Add"
  | I_I64Sub => DAtom "I64Sub"
  | I_I64Mul => DAtom "I64Mul"
  | I_I64DivS => DAtom "I64DivS"
  | I_I64DivU => DAtom "I64DivU"
  | I_I64RemS => DAtom "I64RemS"
  | I_I64RemU => DAtom "I64RemU"
  | I_I64And => DAtom "I64And"
  | I_I64Or => DAtom "I64Or"
  | I_I64Xor => DAtom "I64Xor"
  | I_I64Shl => DAtom "I64Shl"
  | I_I64ShrS => DAtom "I64ShrS"
  | I_I64ShrU => DAtom "I64ShrU"
  | I_I64Rotl => DAtom "I64Rotl"
  | I_I64Rotr => DAtom "I64Rotr"
  | I_F32Abs => DAtom "F32Abs"
  | I_F32Neg => DAtom "F32Neg"
  | I_F32Ceil => DAtom "F32Ceil"
  | I_F32Floor => DAtom "F32Floor"
  | I_F32Trunc => DAtom "F32Trunc"
  | I_F32Nearest => DAtom "F32Nearest"
  | I_F32Sqrt => DAtom "F32Sqrt"
  | I_F32Add => DAtom "F32Add"
  | I_F32Sub => DAtom "F32Sub"
  | I_F32Mul => DAtom "F32Mul"
  | I_F32Div => DAtom "F32Div"
  | I_F32Min => DAtom "F32Min"
  | I_F32Max => DAtom "F32Max"
  | I_F32Copysign => DAtom "F32Copysign"
  | I_F64Abs => DAtom "F64Abs"
  | I_F64Neg => DAtom "F64Neg"
  | I_F64Ceil => DAtom "F64Ceil"
  | I_F64Floor => DAtom "F64Floor"
  | I_F64Trunc => DAtom "F64Trunc"
  | I_F64Nearest => DAtom "F64Nearest"
  | I_F64Sqrt => DAtom "F64Sqrt"
  | I_F64Add => DAtom "F64Add"
  | I_F64Sub => DAtom "F64Sub"
  | I_F64Mul => DAtom "F64Mul"
  | I_F64Div => DAtom "F64Div"
  | I_F64Min => DAtom "F64Min"
  | I_F64Max => DAtom "F64Max"
  | I_F64Copysign => DAtom "F64Copysign"
  | I_I32WrapI64 => DAtom "I32WrapI64"
  | I_I32TruncF32S => DAtom "I32TruncF32S"
  | I_I32TruncF32U => DAtom "I32TruncF32U"
  | I_I32TruncF64S => DAtom "I32TruncF64S"
  | I_I32TruncF64U => DAtom "I32TruncF64U"
  | I_I64ExtendI32S => DAtom "I64ExtendI32S"
  | I_I64ExtendI32U => DAtom "I64ExtendI32U"
  | I_I64TruncF32S => DAtom "I64TruncF32S"
  | I_I64TruncF32U => DAtom "I64TruncF32U"
  | I_I64TruncF64S => DAtom "I64TruncF64S"
  | I_I64TruncF64U => DAtom "I64TruncF64U"
  | I_F32ConvertI32S => DAtom "F32ConvertI32S"
  | I_F32ConvertI32U => DAtom "F32ConvertI32U"
  | I_F32ConvertI64S => DAtom "F32ConvertI64S"
  | I_F32ConvertI64U => DAtom "F32ConvertI64U"
  | I_F32DemoteF64 => DAtom "F32DemoteF64"
  | I_F64ConvertI32S => DAtom "F64ConvertI32S"
  | I_F64ConvertI32U => DAtom "F64ConvertI32U"
  | I_F64ConvertI64S => DAtom "F64ConvertI64S"
  | I_F64ConvertI64U => DAtom "F64ConvertI64U"
  | I_F64PromoteF32 => DAtom "F64PromoteF32"
  | I_I32ReinterpretF32 => DAtom "I32ReinterpretF32"
  | I_I64ReinterpretF64 => DAtom "I64ReinterpretF64"
  | I_F32ReinterpretI32 => DAtom "F32ReinterpretI32"
  | I_F64ReinterpretI64 => DAtom "F64ReinterpretI64"
  | I_I32Extend8S => DAtom "I32Extend8S"
  | I_I32Extend16S => DAtom "I32Extend16S"
  | I_I64Extend8S => DAtom "I64Extend8S"
  | I_I64Extend16S => DAtom "I64Extend16S"
  | I_I64Extend32S => DAtom "I64Extend32S"
  | I_I32TruncSatF32S => DAtom "I32TruncSatF32S"
  | I_I32TruncSatF32U => DAtom "I32TruncSatF32U"
  | I_I32TruncSatF64S => DAtom "I32TruncSatF64S"
  | I_I32TruncSatF64U => DAtom "I32TruncSatF64U"
  | I_I64TruncSatF32S => DAtom "I64TruncSatF32S"
  | I_I64TruncSatF32U => DAtom "I64TruncSatF32U"
  | I_I64TruncSatF64S => DAtom "I64TruncSatF64S"
  | I_I64TruncSatF64U => DAtom "I64TruncSatF64U"
  | I_V128Load x0 => DTuple "V128Load" [show_Memarg x0]
  | I_V128Load8x8S x0 => DTuple "V128Load8x8S" [show_Memarg x0]
  | I_V128Load8x8U x0 => DTuple "V128Load8x8U" [show_Memarg x0]
  | I_V128Load16x4S x0 => DTuple "V128Load16x4S" [show_Memarg x0]
  | I_V128Load16x4U x0 => DTuple "V128Load16x4U" [show_Memarg x0]
  | I_V128Load32x2S x0 => DTuple "V128Load32x2S" [show_Memarg x0]
  | I_V128Load32x2U x0 => DTuple "V128Load32x2U" [show_Memarg x0]
  | I_V128Load8Splat x0 => DTuple "V128Load8Splat" [show_Memarg x0]
  | I_V128Load16Splat x0 => DTuple "V128Load16Splat" [show_Memarg x0]
  | I_V128Load32Splat x0 => DTuple "V128Load32Splat" [show_Memarg x0]
  | I_V128Load64Splat x0 => DTuple "V128Load64Splat" [show_Memarg x0]
  | I_V128Load32Zero x0 => DTuple "V128Load32Zero" [show_Memarg x0]
  | I_V128Load64Zero x0 => DTuple "V128Load64Zero" [show_Memarg x0]
  | I_V128Store x0 => DTuple "V128Store" [show_Memarg x0]
  | I_V128Load8Lane x0 x1 => DTuple "V128Load8Lane" [show_Memarg x0; show_LaneIdx x1]
  | I_V128Load16Lane x0 x1 => DTuple "V128Load16Lane" [show_Memarg x0; show_LaneIdx x1]
  | I_V128Load32Lane x0 x1 => DTuple "V128Load32Lane" [show_Memarg x0; show_LaneIdx x1]
  | I_V128Load64Lane x0 x1 => DTuple "V128Load64Lane" [show_Memarg x0; show_LaneIdx x1]
  | I_V128Store8Lane x0 x1 => DTuple "V128Store8Lane" [show_Memarg x0; show_LaneIdx x1]
  | I_V128Store16Lane x0 x1 => DTuple "V128Store16Lane" [show_Memarg x0; show_LaneIdx x1]
  | I_V128Store32Lane x0 x1 => DTuple "V128Store32Lane" [show_Memarg x0; show_LaneIdx x1]
  | I_V128Store64Lane x0 x1 => DTuple "V128Store64Lane" [show_Memarg x0; show_LaneIdx x1]
  | I_V128Const x0 => DTuple "V128Const" [DList (map (fun y11 => DAtom (dec (Byte.to_N y11))) x0)]
  | I_I8x16Shuffle x0 => DTuple "I8x16Shuffle" [DList (map (fun y12 => show_LaneIdx y12) x0)]
  | I_I8x16ExtractLaneS x0 => DTuple "I8x16ExtractLaneS" [show_LaneIdx x0]
  | I_I8x16ExtractLaneU x0 => DTuple "I8x16ExtractLaneU" [show_LaneIdx x0]
  | I_I8x16ReplaceLane x0 => DTuple "I8x16ReplaceLane" [show_LaneIdx x0]
  | I_I16x8ExtractLaneS x0 => DTuple "I16x8ExtractLaneS" [show_LaneIdx x0]
  | I_I16x8ExtractLaneU x0 => DTuple "I16x8ExtractLaneU" [show_LaneIdx x0]
  | I_I16x8ReplaceLane x0 => DTuple "I16x8ReplaceLane" [show_LaneIdx x0]
  | I_I32x4ExtractLane x0 => DTuple "I32x4ExtractLane" [show_LaneIdx x0]
  | I_I32x4ReplaceLane x0 => DTuple "I32x4ReplaceLane" [show_LaneIdx x0]
  | I_I64x2ExtractLane x0 => DTuple "I64x2ExtractLane" [show_LaneIdx x0]
  | I_I64x2ReplaceLane x0 => DTuple "I64x2ReplaceLane" [show_LaneIdx x0]
  | I_F32x4ExtractLane x0 => DTuple "F32x4ExtractLane" [show_LaneIdx x0]
  | I_F32x4ReplaceLane x0 => DTuple "F32x4ReplaceLane" [show_LaneIdx x0]
  | I_F64x2ExtractLane x0 => DTuple "F64x2ExtractLane" [show_LaneIdx x0]
  | I_F64x2ReplaceLane x0 => DTuple "F64x2ReplaceLane" [show_LaneIdx x0]
  | I_I8x16Swizzle => DAtom "I8x16Swizzle"
  | I_I8x16RelaxedSwizzle => DAtom "I8x16RelaxedSwizzle"
  | I_I8x16Splat => DAtom "I8x16Splat"
  | I_I16x8Splat => DAtom "I16x8Splat"
  | I_I32x4Splat => DAtom "I32x4Splat"
  | I_I64x2Splat => DAtom "I64x2Splat"
  | I_F32x4Splat => DAtom "F32x4Splat"
  | I_F64x2Splat => DAtom "F64x2Splat"
  | I_I8x16Eq => DAtom "I8x16Eq"
  | I_I8x16Ne => DAtom "I8x16Ne"
  | I_I8x16LtS => DAtom "I8x16LtS"
  | I_I8x16LtU => DAtom "I8x16LtU"
  | I_I8x16GtS => DAtom "I8x16GtS"
  | I_I8x16GtU => DAtom "I8x16GtU"
  | I_I8x16LeS => DAtom "I8x16LeS"
  | I_I8x16LeU => DAtom "I8x16LeU"
  | I_I8x16GeS => DAtom "I8x16GeS"
  | I_I8x16GeU => DAtom "I8x16GeU"
  | I_I16x8Eq => DAtom "I16x8Eq"
  | I_I16x8Ne => DAtom "I16x8Ne"
  | I_I16x8LtS => DAtom "I16x8LtS"
  | I_I16x8LtU => DAtom "I16x8LtU"
  | I_I16x8GtS => DAtom "I16x8GtS"
  | I_I16x8GtU => DAtom "I16x8GtU"
  | I_I16x8LeS => DAtom "I16x8LeS"
  | I_I16x8LeU => DAtom "I16x8LeU"
  | I_I16x8GeS => DAtom "I16x8GeS"
  | I_I16x8GeU => DAtom "I16x8GeU"
  | I_I32x4Eq => DAtom "I32x4Eq"
  | I_I32x4Ne => DAtom "I32x4Ne"
  | I_I32x4LtS => DAtom "I32x4LtS"
  | I_I32x4LtU => DAtom "I32x4LtU"
  | I_I32x4GtS => DAtom "I32x4GtS"
  | I_I32x4GtU => DAtom "I32x4GtU"
  | I_I32x4LeS => DAtom "I32x4LeS"
  | I_I32x4LeU => DAtom "I32x4LeU"
  | I_I32x4GeS => DAtom "I32x4GeS"
  | I_I32x4GeU => DAtom "I32x4GeU"
  | I_I64x2Eq => DAtom "I64x2Eq"
  | I_I64x2Ne => DAtom "I64x2Ne"
  | I_I64x2LtS => DAtom "I64x2LtS"
  | I_I64x2GtS => DAtom "I64x2GtS"
  | I_I64x2LeS => DAtom "I64x2LeS"
  | I_I64x2GeS => DAtom "I64x2GeS"
  | I_F32x4Eq => DAtom "F32x4Eq"
  | I_F32x4Ne => DAtom "F32x4Ne"
  | I_F32x4Lt => DAtom "F32x4Lt"
  | I_F32x4Gt => DAtom "F32x4Gt"
  | I_F32x4Le => DAtom "F32x4Le"
  | I_F32x4Ge => DAtom "F32x4Ge"
  | I_F64x2Eq => DAtom "F64x2Eq"
  | I_F64x2Ne => DAtom "F64x2Ne"
  | I_F64x2Lt => DAtom "F64x2Lt"
  | I_F64x2Gt => DAtom "F64x2Gt"
  | I_F64x2Le => DAtom "F64x2Le"
  | I_F64x2Ge => DAtom "F64x2Ge"
  | I_V128Not => DAtom "V128Not"
  | I_V128And => DAtom "V128And"
  | I_V128AndNot => DAtom "V128AndNot"
  | I_V128Or => DAtom "V128Or"
  | I_V128Xor => DAtom "V128Xor"
  | I_V128Bitselect => DAtom "V128Bitselect"
  | I_I8x16RelaxedLaneSelect => DAtom "I8x16RelaxedLaneSelect"
  | I_I16x8RelaxedLaneSelect => DAtom "I16x8RelaxedLaneSelect"
  | I_I32x4RelaxedLaneSelect => DAtom "I32x4RelaxedLaneSelect"
  | I_I64x2RelaxedLaneSelect => DAtom "I64x2RelaxedLaneSelect"
  | I_V128AnyTrue => DAtom "V128AnyTrue"
  | I_I8x16Abs => DAtom "I8x16Abs"
  | I_I8x16Neg => DAtom "I8x16Neg"
  | I_I8x16Popcnt => DAtom "I8x16Popcnt"
  | I_I8x16AllTrue => DAtom "I8x16AllTrue"
  | I_I8x16Bitmask => DAtom "I8x16Bitmask"
  | I_I8x16NarrowI16x8S => DAtom "I8x16NarrowI16x8S"
  | I_I8x16NarrowI16x8U => DAtom "I8x16NarrowI16x8U"
  | I_I8x16Shl => DAtom "I8x16Shl"
  | I_I8x16ShrS => DAtom "I8x16ShrS"
  | I_I8x16ShrU => DAtom "I8x16ShrU"
  | I_I8x16Add => DAtom "I8x16Add"
  | I_I8x16AddSatS => DAtom "I8x16AddSatS"
  | I_I8x16AddSatU => DAtom "I8x16AddSatU"
  | I_I8x16Sub => DAtom "I8x16Sub"
  | I_I8x16SubSatS => DAtom "I8x16SubSatS"
  | I_I8x16SubSatU => DAtom "I8x16SubSatU"
  | I_I8x16MinS => DAtom "I8x16MinS"
  | I_I8x16MinU => DAtom "I8x16MinU"
  | I_I8x16MaxS => DAtom "I8x16MaxS"
  | I_I8x16MaxU => DAtom "I8x16MaxU"
  | I_I8x16AvgrU => DAtom "I8x16AvgrU"
  | I_I16x8ExtaddPairwiseI8x16S => DAtom "I16x8ExtaddPairwiseI8x16S"
  | I_I16x8ExtaddPairwiseI8x16U => DAtom "I16x8ExtaddPairwiseI8x16U"
  | I_I16x8Abs => DAtom "I16x8Abs"
  | I_I16x8Neg => DAtom "I16x8Neg"
  | I_I16x8Q15MulrSatS => DAtom "I16x8Q15MulrSatS"
  | I_I16x8AllTrue => DAtom "I16x8AllTrue"
  | I_I16x8Bitmask => DAtom "I16x8Bitmask"
  | I_I16x8NarrowI32x4S => DAtom "I16x8NarrowI32x4S"
  | I_I16x8NarrowI32x4U => DAtom "I16x8NarrowI32x4U"
  | I_I16x8ExtendLowI8x16S => DAtom "I16x8ExtendLowI8x16S"
  | I_I16x8ExtendHighI8x16S => DAtom "I16x8ExtendHighI8x16S"
  | I_I16x8ExtendLowI8x16U => DAtom "I16x8ExtendLowI8x16U"
  | I_I16x8ExtendHighI8x16U => DAtom "I16x8ExtendHighI8x16U"
  | I_I16x8Shl => DAtom "I16x8Shl"
  | I_I16x8ShrS => DAtom "I16x8ShrS"
  | I_I16x8ShrU => DAtom "I16x8ShrU"
  | I_I16x8Add => DAtom "I16x8Add"
  | I_I16x8AddSatS => DAtom "I16x8AddSatS"
  | I_I16x8AddSatU => DAtom "I16x8AddSatU"
  | I_I16x8Sub => DAtom "I16x8Sub"
  | I_I16x8SubSatS => DAtom "I16x8SubSatS"
  | I_I16x8SubSatU => DAtom "I16x8SubSatU"
  | I_I16x8Mul => DAtom "I16x8Mul"
  | I_I16x8MinS => DAtom "I16x8MinS"
  | I_I16x8MinU => DAtom "I16x8MinU"
  | I_I16x8MaxS => DAtom "I16x8MaxS"
  | I_I16x8MaxU => DAtom "I16x8MaxU"
  | I_I16x8AvgrU => DAtom "I16x8AvgrU"
  | I_I16x8ExtmulLowI8x16S => DAtom "I16x8ExtmulLowI8x16S"
  | I_I16x8ExtmulHighI8x16S => DAtom "I16x8ExtmulHighI8x16S"
  | I_I16x8ExtmulLowI8x16U => DAtom "I16x8ExtmulLowI8x16U"
  | I_I16x8ExtmulHighI8x16U => DAtom "I16x8ExtmulHighI8x16U"
  | I_I16x8RelaxedQ15MulrS => DAtom "I16x8RelaxedQ15MulrS"
  | I_I16x8RelaxedDotSI8x16 => DAtom "I16x8RelaxedDotSI8x16"
  | I_I32x4RelaxedDotAddSI16x8 => DAtom "I32x4RelaxedDotAddSI16x8"
  | I_I32x4ExtaddPairwiseI16x8S => DAtom "I32x4ExtaddPairwiseI16x8S"
  | I_I32x4ExtaddPairwiseI16x8U => DAtom "I32x4ExtaddPairwiseI16x8U"
  | I_I32x4Abs => DAtom "I32x4Abs"
  | I_I32x4Neg => DAtom "I32x4Neg"
  | I_I32x4AllTrue => DAtom "I32x4AllTrue"
  | I_I32x4Bitmask => DAtom "I32x4Bitmask"
  | I_I32x4ExtendLowI16x8S => DAtom "I32x4ExtendLowI16x8S"
  | I_I32x4ExtendHighI16x8S => DAtom "I32x4ExtendHighI16x8S"
  | I_I32x4ExtendLowI16x8U => DAtom "I32x4ExtendLowI16x8U"
  | I_I32x4ExtendHighI16x8U => DAtom "I32x4ExtendHighI16x8U"
  | I_I32x4Shl => DAtom "I32x4Shl"
  | I_I32x4ShrS => DAtom "I32x4ShrS"
  | I_I32x4ShrU => DAtom "I32x4ShrU"
  | I_I32x4Add => DAtom "I32x4Add"
  | I_I32x4Sub => DAtom "I32x4Sub"
  | I_I32x4Mul => DAtom "I32x4Mul"
  | I_I32x4MinS => DAtom "I32x4MinS"
  | I_I32x4MinU => DAtom "I32x4MinU"
  | I_I32x4MaxS => DAtom "I32x4MaxS"
  | I_I32x4MaxU => DAtom "I32x4MaxU"
  | I_I32x4DotI16x8S => DAtom "I32x4DotI16x8S"
  | I_I32x4ExtmulLowI16x8S => DAtom "I32x4ExtmulLowI16x8S"
  | I_I32x4ExtmulHighI16x8S => DAtom "I32x4ExtmulHighI16x8S"
  | I_I32x4ExtmulLowI16x8U => DAtom "I32x4ExtmulLowI16x8U"
  | I_I32x4ExtmulHighI16x8U => DAtom "I32x4ExtmulHighI16x8U"
  | I_I64x2Abs => DAtom "I64x2Abs"
  | I_I64x2Neg => DAtom "I64x2Neg"
  | I_I64x2AllTrue => DAtom "I64x2AllTrue"
  | I_I64x2Bitmask => DAtom "I64x2Bitmask"
  | I_I64x2ExtendLowI32x4S => DAtom "I64x2ExtendLowI32x4S"
  | I_I64x2ExtendHighI32x4S => DAtom "I64x2ExtendHighI32x4S"
  | I_I64x2ExtendLowI32x4U => DAtom "I64x2ExtendLowI32x4U"
  | I_I64x2ExtendHighI32x4U => DAtom "I64x2ExtendHighI32x4U"
  | I_I64x2Shl => DAtom "I64x2Shl"
  | I_I64x2ShrS => DAtom "I64x2ShrS"
  | I_I64x2ShrU => DAtom "I64x2ShrU"
  | I_I64x2Add => DAtom "I64x2Add"
  | I_I64x2Sub => DAtom "I64x2Sub"
  | I_I64x2Mul => DAtom "I64x2Mul"
  | I_I64x2ExtmulLowI32x4S => DAtom "I64x2ExtmulLowI32x4S"
  | I_I64x2ExtmulHighI32x4S => DAtom "I64x2ExtmulHighI32x4S"
  | I_I64x2ExtmulLowI32x4U => DAtom "I64x2ExtmulLowI32x4U"
  | I_I64x2ExtmulHighI32x4U => DAtom "I64x2ExtmulHighI32x4U"
  | I_F32x4Ceil => DAtom "F32x4Ceil"
  | I_F32x4Floor => DAtom "F32x4Floor"
  | I_F32x4Trunc => DAtom "F32x4Trunc"
  | I_F32x4Nearest => DAtom "F32x4Nearest"
  | I_F32x4Abs => DAtom "F32x4Abs"
  | I_F32x4Neg => DAtom "F32x4Neg"
  | I_F32x4Sqrt => DAtom "F32x4Sqrt"
  | I_F32x4Add => DAtom "F32x4Add"
  | I_F32x4Sub => DAtom "F32x4Sub"
  | I_F32x4Mul => DAtom "F32x4Mul"
  | I_F32x4Div => DAtom "F32x4Div"
  | I_F32x4Min => DAtom "F32x4Min"
  | I_F32x4Max => DAtom "F32x4Max"
  | I_F32x4PMin => DAtom "F32x4PMin"
  | I_F32x4PMax => DAtom "F32x4PMax"
  | I_F32x4RelaxedMin => DAtom "F32x4RelaxedMin"
  | I_F32x4RelaxedMax => DAtom "F32x4RelaxedMax"
  | I_F32x4RelaxedMAdd => DAtom "F32x4RelaxedMAdd"
  | I_F32x4RelaxedNMAdd => DAtom "F32x4RelaxedNMAdd"
  | I_F64x2Ceil => DAtom "F64x2Ceil"
  | I_F64x2Floor => DAtom "F64x2Floor"
  | I_F64x2Trunc => DAtom "F64x2Trunc"
  | I_F64x2Nearest => DAtom "F64x2Nearest"
  | I_F64x2Abs => DAtom "F64x2Abs"
  | I_F64x2Neg => DAtom "F64x2Neg"
  | I_F64x2Sqrt => DAtom "F64x2Sqrt"
  | I_F64x2Add => DAtom "F64x2Add"
  | I_F64x2Sub => DAtom "F64x2Sub"
  | I_F64x2Mul => DAtom "F64x2Mul"
  | I_F64x2Div => DAtom "F64x2Div"
  | I_F64x2Min => DAtom "F64x2Min"
  | I_F64x2Max => DAtom "F64x2Max"
  | I_F64x2PMin => DAtom "F64x2PMin"
  | I_F64x2PMax => DAtom "F64x2PMax"
  | I_F64x2RelaxedMin => DAtom "F64x2RelaxedMin"
  | I_F64x2RelaxedMax => DAtom "F64x2RelaxedMax"
  | I_F64x2RelaxedMAdd => DAtom "F64x2RelaxedMAdd"
  | I_F64x2RelaxedNMAdd => DAtom "F64x2RelaxedNMAdd"
  | I_I32x4TruncSatF32x4S => DAtom "I32x4TruncSatF32x4S"
  | I_I32x4TruncSatF32x4U => DAtom "I32x4TruncSatF32x4U"
  | I_F32x4ConvertI32x4S => DAtom "F32x4ConvertI32x4S"
  | I_F32x4ConvertI32x4U => DAtom "F32x4ConvertI32x4U"
  | I_I32x4TruncSatF64x2SZero => DAtom "I32x4TruncSatF64x2SZero"
  | I_I32x4TruncSatF64x2UZero => DAtom "I32x4TruncSatF64x2UZero"
  | I_I32x4RelaxedTruncF32x4S => DAtom "I32x4RelaxedTruncF32x4S"
  | I_I32x4RelaxedTruncF32x4U => DAtom "I32x4RelaxedTruncF32x4U"
  | I_I32x4RelaxedTruncF64x2SZero => DAtom "I32x4RelaxedTruncF64x2SZero"
  | I_I32x4RelaxedTruncF64x2UZero => DAtom "I32x4RelaxedTruncF64x2UZero"
  | I_F64x2ConvertLowI32x4S => DAtom "F64x2ConvertLowI32x4S"
  | I_F64x2ConvertLowI32x4U => DAtom "F64x2ConvertLowI32x4U"
  | I_F32x4DemoteF64x2Zero => DAtom "F32x4DemoteF64x2Zero"
  | I_F64x2PromoteLowF32x4 => DAtom "F64x2PromoteLowF32x4"
  end.
(** src/core/mod.rs *)
Definition show_DataMode (e : DataMode) : dtree :=
  match e with
  | DM_Passive => DAtom "Passive"
  | DM_Active x0 x1 => DStruct "Active" [("memory", DTuple "MemIdx" [DAtom (dec x0)]); ("offset", DList (map (fun y1 => show_Instruction y1) x1))]
  end.
(** src/core/mod.rs *)
Definition show_Data (x : Data) : dtree :=
  DStruct "Data" [("init", DList (map (fun y1 => DAtom (dec (Byte.to_N y1))) (d_init x))); ("mode", show_DataMode (d_mode x))].
(** src/core/mod.rs *)
Definition show_ElemMode (e : ElemMode) : dtree :=
  match e with
  | EM_Passive => DAtom "Passive"
  | EM_Active x0 x1 => DStruct "Active" [("table", DTuple "TableIdx" [DAtom (dec x0)]); ("offset", DList (map (fun y1 => show_Instruction y1) x1))]
  | EM_Declare => DAtom "Declare"
  end.
(** src/core/mod.rs *)
Definition show_Elem (x : Elem) : dtree :=
  DStruct "Elem" [("type", show_RefType (e_type x)); ("init", DList (map (fun y1 => DList (map (fun y2 => show_Instruction y2) y1)) (e_init x))); ("mode", show_ElemMode (e_mode x))].
(** src/core/mod.rs *)
Definition show_ExternIdx (e : ExternIdx) : dtree :=
  match e with
  | EI_Func x0 => DTuple "Func" [DTuple "FuncIdx" [DAtom (dec x0)]]
  | EI_Global x0 => DTuple "Global" [DTuple "GlobalIdx" [DAtom (dec x0)]]
  | EI_Table x0 => DTuple "Table" [DTuple "TableIdx" [DAtom (dec x0)]]
  | EI_Mem x0 => DTuple "Mem" [DTuple "MemIdx" [DAtom (dec x0)]]
  | EI_Tag x0 => DTuple "Tag" [DTuple "TagIdx" [DAtom (dec x0)]]
  end.
(** src/core/mod.rs *)
Definition show_Export (x : Export) : dtree :=
  DStruct "Export" [("name", DAtom (debug_str (ex_name x))); ("externidx", show_ExternIdx (ex_idx x))].
(** src/core/mod.rs *)
Definition show_Func (x : Func) : dtree :=
  DStruct "Func" [("type", DTuple "TypeIdx" [DAtom (dec (f_type x))]); ("locals", DList (map (fun y1 => show_ValType y1) (f_locals x))); ("body", DList (map (fun y2 => show_Instruction y2) (f_body x)))].
(** src/core/types/globaltype.rs *)
Definition show_Mut (e : Mut) : dtree :=
  match e with
  | Const => DAtom "Const"
  | Var => DAtom "Var"
  end.
(** src/core/types/globaltype.rs *)
Definition show_GlobalType (x : GlobalType) : dtree :=
  DTuple "GlobalType" [show_Mut (gt_mut x); show_ValType (gt_type x)].
(** src/core/mod.rs *)
Definition show_Global (x : Global) : dtree :=
  DStruct "Global" [("type", show_GlobalType (g_type x)); ("init", DList (map (fun y1 => show_Instruction y1) (g_init x)))].
(** src/core/types/addrtype.rs *)
Definition show_AddrType (e : AddrType) : dtree :=
  match e with
  | AT_I32 => DAtom "I32"
  | AT_I64 => DAtom "I64"
  end.
(** src/core/types/limits.rs *)
Definition show_Limits (x : Limits) : dtree :=
  DStruct "Limits" [("address_type", show_AddrType (address_type x)); ("min", DAtom (dec (lim_min x))); ("max", match (lim_max x) with None => DAtom "None" | Some y1 => DTuple "Some" [DAtom (dec y1)] end)].
(** src/core/types/memtype.rs *)
Definition show_MemType (x : MemType) : dtree :=
  DStruct "MemType" [("limits", show_Limits (mt_limits x))].
(** src/core/types/tabletype.rs *)
Definition show_TableType (x : TableType) : dtree :=
  DStruct "TableType" [("reftype", show_RefType (tt_reftype x)); ("limits", show_Limits (tt_limits x))].
(** src/core/types/tagtype.rs *)
Definition show_TagType (x : TagType) : dtree :=
  DTuple "TagType" [DTuple "TypeIdx" [DAtom (dec (tag_type x))]].
(** src/core/types/externtype.rs *)
Definition show_ExternType (e : ExternType) : dtree :=
  match e with
  | ET_Func x0 => DTuple "Func" [DTuple "TypeIdx" [DAtom (dec x0)]]
  | ET_Table x0 => DTuple "Table" [show_TableType x0]
  | ET_Mem x0 => DTuple "Mem" [show_MemType x0]
  | ET_Global x0 => DTuple "Global" [show_GlobalType x0]
  | ET_Tag x0 => DTuple "Tag" [show_TagType x0]
  end.
(** src/core/mod.rs *)
Definition show_Import (x : Import) : dtree :=
  DStruct "Import" [("module_name", DAtom (debug_str (im_module x))); ("item_name", DAtom (debug_str (im_item x))); ("extern_type", show_ExternType (im_type x))].
(** src/core/types/comptype.rs *)
Definition show_PackType (e : PackType) : dtree :=
  match e with
  | PT_I8 => DAtom "I8"
  | PT_I16 => DAtom "I16"
  end.
(** src/core/types/comptype.rs *)
Definition show_StorageType (e : StorageType) : dtree :=
  match e with
  | ST_Val x0 => DTuple "ValType" [show_ValType x0]
  | ST_Pack x0 => DTuple "PackType" [show_PackType x0]
  end.
(** src/core/types/comptype.rs *)
Definition show_FieldType (x : FieldType) : dtree :=
  DTuple "FieldType" [show_Mut (ft_mut x); show_StorageType (ft_type x)].
(** src/core/types/comptype.rs *)
Definition show_CompType (e : CompType) : dtree :=
  match e with
  | CT_Struct x0 => DTuple "Struct" [DList (map (fun y1 => show_FieldType y1) x0)]
  | CT_Array x0 => DTuple "Array" [show_FieldType x0]
  | CT_Func x0 x1 => DStruct "Func" [("parameters", DList (map (fun y2 => show_ValType y2) x0)); ("results", DList (map (fun y3 => show_ValType y3) x1))]
  end.
(** src/core/types/rectype.rs *)
Definition show_SubType (x : SubType) : dtree :=
  DStruct "SubType" [("is_final", DAtom (if (is_final x) then "true" else "false")); ("supertypes", DList (map (fun y1 => DTuple "TypeIdx" [DAtom (dec y1)]) (supertypes x))); ("comptype", show_CompType (comptype x))].
(** src/core/types/rectype.rs *)
Definition show_RecType (x : RecType) : dtree := DTuple "RecType" [DList (map (fun y1 => show_SubType y1) x)].
(** src/core/module.rs *)
Definition show_SectionKind (e : SectionKind) : dtree :=
  match e with
  | SK_Custom => DAtom "Custom"
  | SK_Type => DAtom "Type"
  | SK_Import => DAtom "Import"
  | SK_Function => DAtom "Function"
  | SK_Table => DAtom "Table"
  | SK_Memory => DAtom "Memory"
  | SK_Tag => DAtom "Tag"
  | SK_Global => DAtom "Global"
  | SK_Export => DAtom "Export"
  | SK_Start => DAtom "Start"
  | SK_Element => DAtom "Element"
  | SK_DataCount => DAtom "DataCount"
  | SK_Code => DAtom "Code"
  | SK_Data => DAtom "Data"
  end.
(** src/core/module.rs *)
Definition show_SectionHeader (x : SectionHeader) : dtree :=
  DStruct "SectionHeader" [("kind", show_SectionKind (sh_kind x)); ("size", DAtom (dec (sh_size x)))].
(** src/core/mod.rs *)
Definition show_Table (x : Table) : dtree :=
  DTuple "Table" [show_TableType (t_type x); DList (map (fun y1 => show_Instruction y1) (t_init x))].
(** src/core/module.rs *)
Definition show_Module (x : Module_) : dtree :=
  DStruct "Module" [("version", DList (map (fun y1 => DAtom (dec (Byte.to_N y1))) (version x))); ("parsed_section_kinds", DList (map (fun y2 => show_SectionKind y2) (parsed_section_kinds x))); ("section_headers", DList (map (fun y3 => show_SectionHeader y3) (section_headers x))); ("custom_sections", DList (map (fun y4 => show_CustomSection y4) (custom_sections x))); ("types", DList (map (fun y5 => show_RecType y5) (types x))); ("funcs", DList (map (fun y6 => show_Func y6) (funcs x))); ("tables", DList (map (fun y7 => show_Table y7) (tables x))); ("mems", DList (map (fun y8 => show_MemType y8) (mems x))); ("globals", DList (map (fun y9 => show_Global y9) (globals x))); ("elems", DList (map (fun y10 => show_Elem y10) (elems x))); ("data_count", match (data_count x) with None => DAtom "None" | Some y11 => DTuple "Some" [DAtom (dec y11)] end); ("datas", DList (map (fun y12 => show_Data y12) (datas x))); ("start", match (start x) with None => DAtom "None" | Some y13 => DTuple "Some" [DTuple "FuncIdx" [DAtom (dec y13)]] end); ("imports", DList (map (fun y14 => show_Import y14) (imports x))); ("exports", DList (map (fun y15 => show_Export y15) (exports x))); ("tags", DList (map (fun y16 => show_TagType y16) (tags x)))].
(** src/decode/integer.rs *)
Definition show_DecodeU32Error (e : DecodeU32Error) : dtree :=
  match e with
  | U32_TooLarge => DAtom "TooLarge"
  | U32_RepresentationTooLong => DAtom "RepresentationTooLong"
  | U32_Io x0 => DTuple "Io" [debug_io x0]
  end.
(** std: FromUtf8Error *)
Definition show_FromUtf8Error (x : list byte) : dtree :=
  DStruct "FromUtf8Error" [("bytes", DList (map (fun b => DAtom (dec (Byte.to_N b))) x)); ("error", debug_utf8_error x)].
(** src/decode/helpers.rs, whose Debug is written by hand: before the source
    comes the name of its type *)
Definition show_list_error {E} (type : string) (show : E -> dtree) (e : DecodeListError E) : dtree :=
  match e with
  | DecodeLength x0 => DTuple "DecodeLength" [show_DecodeU32Error x0]
  | ParseElement x0 x1 => DStruct "ParseElement" [("position", DAtom (dec x0)); ("source", DPath type (show x1))]
  end.
(** src/decode/types/heaptype.rs *)
Definition show_InvalidAbsHeapTypeMarkerError (e : InvalidAbsHeapTypeMarkerError) : dtree := match e with InvalidAbsHeapTypeMarker x => DTuple "InvalidAbsHeapTypeMarkerError" [DAtom (dec (Byte.to_N x))] end.
(** src/decode/types/heaptype.rs *)
Definition show_DecodeAbsHeapTypeError (e : DecodeAbsHeapTypeError) : dtree :=
  match e with
  | AHT_ReadMarkerByte x0 => DTuple "ReadMarkerByte" [debug_io x0]
  | AHT_InvalidMarkerByte x0 => DTuple "InvalidMarkerByte" [show_InvalidAbsHeapTypeMarkerError x0]
  end.
(** src/decode/integer.rs *)
Definition show_DecodeS33Error (e : DecodeS33Error) : dtree :=
  match e with
  | S33_RepresentationTooLong => DAtom "RepresentationTooLong"
  | S33_IncorrectSignExtension => DAtom "IncorrectSignExtension"
  | S33_Io x0 => DTuple "Io" [debug_io x0]
  end.
(** src/decode/types/heaptype.rs *)
Definition show_DecodeHeapTypeError (e : DecodeHeapTypeError) : dtree :=
  match e with
  | HT_ReadMarkerByte x0 => DTuple "ReadMarkerByte" [debug_io x0]
  | HT_DecodeTypeIndex x0 => DTuple "DecodeTypeIndex" [show_DecodeS33Error x0]
  | HT_NegativeTypeIndex x0 => DTuple "NegativeTypeIndex" [DAtom (decZ x0)]
  end.
(** src/decode/types/reftype.rs *)
Definition show_DecodeRefTypeError (e : DecodeRefTypeError) : dtree :=
  match e with
  | RT_Io x0 => DTuple "Io" [debug_io x0]
  | RT_DecodeHeapType x0 => DTuple "DecodeHeapType" [show_DecodeHeapTypeError x0]
  | RT_InvalidMarkerByte x0 => DTuple "InvalidMarkerByte" [show_DecodeAbsHeapTypeError x0]
  end.
(** src/decode/types/valtype.rs *)
Definition show_DecodeValTypeError (e : DecodeValTypeError) : dtree :=
  match e with
  | VTE_Io x0 => DTuple "Io" [debug_io x0]
  | VTE_DecodeRefType x0 => DTuple "DecodeRefType" [show_DecodeRefTypeError x0]
  end.
(** src/decode/sections/code.rs *)
Definition show_DecodeCodeLocalsError (e : DecodeCodeLocalsError) : dtree :=
  match e with
  | Loc_DecodeLocalsCount x0 => DTuple "DecodeLocalsCount" [show_DecodeU32Error x0]
  | Loc_LocalsCountOutOfBound x0 x1 => DStruct "LocalsCountOutOfBound" [("max_locals", DAtom (dec x0)); ("actual_locals", DAtom (dec x1))]
  | Loc_DecodeLocalValType x0 => DTuple "DecodeLocalValType" [show_DecodeValTypeError x0]
  end.
(** src/decode/indices.rs *)
Definition show_DecodeDataIdxError (e : DecodeDataIdxError) : dtree := match e with DataIdxE x => DTuple "DecodeDataIdxError" [show_DecodeU32Error x] end.
(** src/decode/indices.rs *)
Definition show_DecodeElemIdxError (e : DecodeElemIdxError) : dtree := match e with ElemIdxE x => DTuple "DecodeElemIdxError" [show_DecodeU32Error x] end.
(** src/decode/indices.rs *)
Definition show_DecodeTypeIdxError (e : DecodeTypeIdxError) : dtree := match e with TypeIdxE x => DTuple "DecodeTypeIdxError" [show_DecodeU32Error x] end.
(** src/decode/instructions.rs *)
Definition show_AggregateError (e : AggregateError) : dtree :=
  match e with
  | Agg_TypeIdx x0 => DTuple "TypeIdx" [show_DecodeTypeIdxError x0]
  | Agg_FieldIndex x0 => DTuple "FieldIndex" [show_DecodeU32Error x0]
  | Agg_DataIdx x0 => DTuple "DataIdx" [show_DecodeDataIdxError x0]
  | Agg_ElemIdx x0 => DTuple "ElemIdx" [show_DecodeElemIdxError x0]
  | Agg_ArrayFixedLength x0 => DTuple "ArrayFixedLength" [show_DecodeU32Error x0]
  end.
(** src/decode/instructions.rs *)
Definition show_BlockTypeError (e : BlockTypeError) : dtree :=
  match e with
  | BT_ReadMarkerByte x0 => DTuple "ReadMarkerByte" [debug_io x0]
  | BT_DecodeIndex x0 => DTuple "DecodeIndex" [show_DecodeS33Error x0]
  | BT_NegativeTypeIndex x0 => DTuple "NegativeTypeIndex" [DAtom (decZ x0)]
  end.
(** src/decode/indices.rs *)
Definition show_DecodeLabelIdxError (e : DecodeLabelIdxError) : dtree := match e with LabelIdxE x => DTuple "DecodeLabelIdxError" [show_DecodeU32Error x] end.
(** src/decode/indices.rs *)
Definition show_DecodeTagIdxError (e : DecodeTagIdxError) : dtree := match e with TagIdxE x => DTuple "DecodeTagIdxError" [show_DecodeU32Error x] end.
(** src/decode/instructions.rs *)
Definition show_CatchError (e : CatchError) : dtree :=
  match e with
  | Catch_ReadMarkerByte x0 => DTuple "ReadMarkerByte" [debug_io x0]
  | Catch_InvalidMarkerByte x0 => DTuple "InvalidMarkerByte" [DAtom (dec (Byte.to_N x0))]
  | Catch_DecodeTagIdx x0 => DTuple "DecodeTagIdx" [show_DecodeTagIdxError x0]
  | Catch_DecodeLabelIdx x0 => DTuple "DecodeLabelIdx" [show_DecodeLabelIdxError x0]
  end.
(** src/decode/indices.rs *)
Definition show_DecodeFuncIdxError (e : DecodeFuncIdxError) : dtree := match e with FuncIdxE x => DTuple "DecodeFuncIdxError" [show_DecodeU32Error x] end.
(** src/decode/indices.rs *)
Definition show_DecodeTableIdxError (e : DecodeTableIdxError) : dtree := match e with TableIdxE x => DTuple "DecodeTableIdxError" [show_DecodeU32Error x] end.
(** src/decode/instructions.rs *)
Definition show_ControlError (e : ControlError) : dtree :=
  match e with
  | Ctl_LabelIdx x0 => DTuple "LabelIdx" [show_DecodeLabelIdxError x0]
  | Ctl_DecodeLabelIdxVector x0 => DTuple "DecodeLabelIdxVector" [show_list_error "DecodeLabelIdxError" show_DecodeLabelIdxError x0]
  | Ctl_FuncIdx x0 => DTuple "FuncIdx" [show_DecodeFuncIdxError x0]
  | Ctl_TableIdx x0 => DTuple "TableIdx" [show_DecodeTableIdxError x0]
  | Ctl_TypeIdx x0 => DTuple "TypeIdx" [show_DecodeTypeIdxError x0]
  | Ctl_TagIdx x0 => DTuple "TagIdx" [show_DecodeTagIdxError x0]
  | Ctl_DecodeCatchListError x0 => DTuple "DecodeCatchListError" [show_list_error "CatchError" show_CatchError x0]
  | Ctl_BlockType x0 => DTuple "BlockType" [show_BlockTypeError x0]
  | Ctl_UnexpectedElse => DAtom "UnexpectedElse"
  | Ctl_ReadCastNullabilityMarker x0 => DTuple "ReadCastNullabilityMarker" [debug_io x0]
  | Ctl_InvalidCastNullabilityMarker x0 => DTuple "InvalidCastNullabilityMarker" [DAtom (dec (Byte.to_N x0))]
  | Ctl_HeapType x0 => DTuple "HeapType" [show_DecodeHeapTypeError x0]
  end.
(** src/decode/indices.rs *)
Definition show_DecodeMemIdxError (e : DecodeMemIdxError) : dtree := match e with MemIdxE x => DTuple "DecodeMemIdxError" [show_DecodeU32Error x] end.
(** src/decode/integer.rs *)
Definition show_DecodeU64Error (e : DecodeU64Error) : dtree :=
  match e with
  | U64_TooLarge => DAtom "TooLarge"
  | U64_RepresentationTooLong => DAtom "RepresentationTooLong"
  | U64_Io x0 => DTuple "Io" [debug_io x0]
  end.
(** src/decode/instructions.rs *)
Definition show_MemargError (e : MemargError) : dtree :=
  match e with
  | MA_InvalidFlagsBit x0 => DTuple "InvalidFlagsBit" [DAtom (dec x0)]
  | MA_Align x0 => DTuple "Align" [show_DecodeU32Error x0]
  | MA_Offset x0 => DTuple "Offset" [show_DecodeU64Error x0]
  | MA_MemIdx x0 => DTuple "MemIdx" [show_DecodeMemIdxError x0]
  end.
(** src/decode/instructions.rs *)
Definition show_MemoryError (e : MemoryError) : dtree :=
  match e with
  | Mem_DecodeMemarg x0 => DTuple "DecodeMemarg" [show_MemargError x0]
  | Mem_DecodeDataIdx x0 => DTuple "DecodeDataIdx" [show_DecodeDataIdxError x0]
  | Mem_DecodeMemIdx x0 => DTuple "DecodeMemIdx" [show_DecodeMemIdxError x0]
  end.
(** src/decode/helpers.rs *)
Definition show_DecodeFloat32Error (e : DecodeFloat32Error) : dtree :=
  match e with
  | F32_ReadPayload x0 => DTuple "ReadPayload" [debug_io x0]
  end.
(** src/decode/helpers.rs *)
Definition show_DecodeFloat64Error (e : DecodeFloat64Error) : dtree :=
  match e with
  | F64_ReadPayload x0 => DTuple "ReadPayload" [debug_io x0]
  end.
(** src/decode/integer.rs *)
Definition show_DecodeI32Error (e : DecodeI32Error) : dtree :=
  match e with
  | I32_TooLarge => DAtom "TooLarge"
  | I32_RepresentationTooLong => DAtom "RepresentationTooLong"
  | I32_Io x0 => DTuple "Io" [debug_io x0]
  end.
(** src/decode/integer.rs *)
Definition show_DecodeI64Error (e : DecodeI64Error) : dtree :=
  match e with
  | I64_RepresentationTooLong => DAtom "RepresentationTooLong"
  | I64_IncorrectSignExtension => DAtom "IncorrectSignExtension"
  | I64_Io x0 => DTuple "Io" [debug_io x0]
  end.
(** src/decode/instructions.rs *)
Definition show_NumericError (e : NumericError) : dtree :=
  match e with
  | Num_ReadOpcode x0 => DTuple "ReadOpcode" [show_DecodeU32Error x0]
  | Num_DecodeI32 x0 => DTuple "DecodeI32" [show_DecodeI32Error x0]
  | Num_DecodeI64 x0 => DTuple "DecodeI64" [show_DecodeI64Error x0]
  | Num_DecodeF32 x0 => DTuple "DecodeF32" [show_DecodeFloat32Error x0]
  | Num_DecodeF64 x0 => DTuple "DecodeF64" [show_DecodeFloat64Error x0]
  end.
(** src/decode/instructions.rs *)
Definition show_ParametricError (e : ParametricError) : dtree :=
  match e with
  | Par_DecodeList x0 => DTuple "DecodeList" [show_list_error "DecodeValTypeError" show_DecodeValTypeError x0]
  end.
(** src/decode/instructions.rs *)
Definition show_ReferenceError (e : ReferenceError) : dtree :=
  match e with
  | Ref_HeapType x0 => DTuple "HeapType" [show_DecodeHeapTypeError x0]
  | Ref_FuncIdx x0 => DTuple "FuncIdx" [show_DecodeFuncIdxError x0]
  | Ref_ReadSubOpcode x0 => DTuple "ReadSubOpcode" [show_DecodeU32Error x0]
  end.
(** src/decode/instructions.rs *)
Definition show_TableError (e : TableError) : dtree :=
  match e with
  | Tab_TableIdx x0 => DTuple "TableIdx" [show_DecodeTableIdxError x0]
  | Tab_ElemIdx x0 => DTuple "ElemIdx" [show_DecodeElemIdxError x0]
  end.
(** src/decode/indices.rs *)
Definition show_DecodeGlobalIdxError (e : DecodeGlobalIdxError) : dtree := match e with GlobalIdxE x => DTuple "DecodeGlobalIdxError" [show_DecodeU32Error x] end.
(** src/decode/indices.rs *)
Definition show_DecodeLocalIdxError (e : DecodeLocalIdxError) : dtree := match e with LocalIdxE x => DTuple "DecodeLocalIdxError" [show_DecodeU32Error x] end.
(** src/decode/instructions.rs *)
Definition show_VariableError (e : VariableError) : dtree :=
  match e with
  | Var_LocalIdx x0 => DTuple "LocalIdx" [show_DecodeLocalIdxError x0]
  | Var_GlobalIdx x0 => DTuple "GlobalIdx" [show_DecodeGlobalIdxError x0]
  end.
(** src/decode/instructions.rs *)
Definition show_LaneIdxError (e : LaneIdxError) : dtree := match e with LaneIdxE x => DTuple "LaneIdxError" [debug_io x] end.
(** src/decode/instructions.rs *)
Definition show_VectorError (e : VectorError) : dtree :=
  match e with
  | Vec_ReadOpcode x0 => DTuple "ReadOpcode" [show_DecodeU32Error x0]
  | Vec_Memarg x0 => DTuple "Memarg" [show_MemargError x0]
  | Vec_LaneIdx x0 => DTuple "LaneIdx" [show_LaneIdxError x0]
  | Vec_ReadImmediateBytes x0 => DTuple "ReadImmediateBytes" [debug_io x0]
  | Vec_InvalidOpcode x0 => DTuple "InvalidOpcode" [DAtom (dec x0)]
  end.
(** src/decode/instructions.rs *)
Definition show_ParseError (e : ParseError) : dtree :=
  match e with
  | PE_ReadOpcode x0 => DTuple "ReadOpcode" [debug_io x0]
  | PE_Control x0 => DTuple "Control" [show_ControlError x0]
  | PE_Reference x0 => DTuple "Reference" [show_ReferenceError x0]
  | PE_Aggregate x0 => DTuple "Aggregate" [show_AggregateError x0]
  | PE_Parametric x0 => DTuple "Parametric" [show_ParametricError x0]
  | PE_Variable x0 => DTuple "Variable" [show_VariableError x0]
  | PE_Table x0 => DTuple "Table" [show_TableError x0]
  | PE_Memory x0 => DTuple "Memory" [show_MemoryError x0]
  | PE_Numeric x0 => DTuple "Numeric" [show_NumericError x0]
  | PE_Vector x0 => DTuple "Vector" [show_VectorError x0]
  | PE_InvalidOpcode x0 => DTuple "InvalidOpcode" [DAtom (dec (Byte.to_N x0))]
  | PE_InvalidMarkerByteAfterFC x0 => DTuple "InvalidMarkerByteAfterFC" [DAtom (dec x0)]
  | PE_InvalidMarkerByteAfterFB x0 => DTuple "InvalidMarkerByteAfterFB" [DAtom (dec x0)]
  end.
(** src/decode/helpers.rs *)
Definition show_ParseExpressionError (e : ParseExpressionError) : dtree :=
  match e with
  | Expr_ParseInstruction x0 => DTuple "ParseInstruction" [show_ParseError x0]
  | Expr_UnexpectedElse => DAtom "UnexpectedElse"
  end.
(** src/decode/sections/code.rs *)
Definition show_DecodeCodeError (e : DecodeCodeError) : dtree :=
  match e with
  | Code_DecodeFunctionSize x0 => DTuple "DecodeFunctionSize" [show_DecodeU32Error x0]
  | Code_DecodeLocalsVector x0 => DTuple "DecodeLocalsVector" [show_list_error "DecodeCodeLocalsError" show_DecodeCodeLocalsError x0]
  | Code_DecodeFunctionBody x0 => DTuple "DecodeFunctionBody" [show_ParseExpressionError x0]
  | Code_EntrySizeMismatch x0 x1 x2 => DStruct "EntrySizeMismatch" [("declared_bytes", DAtom (dec x0)); ("leftover_bytes", DAtom (dec x1)); ("consumed_bytes", DAtom (dec x2))]
  end.
(** src/decode/sections/code.rs *)
Definition show_DecodeCodeSectionError (e : DecodeCodeSectionError) : dtree :=
  match e with
  | CodeSec_DecodeList x0 => DTuple "DecodeList" [show_list_error "DecodeCodeError" show_DecodeCodeError x0]
  end.
(** src/decode/helpers.rs *)
Definition show_DecodeByteVectorError (e : DecodeByteVectorError) : dtree :=
  match e with
  | BV_DecodeLength x0 => DTuple "DecodeLength" [show_DecodeU32Error x0]
  | BV_ReadElements x0 => DTuple "ReadElements" [debug_io x0]
  end.
(** src/decode/helpers.rs *)
Definition show_DecodeNameError (e : DecodeNameError) : dtree :=
  match e with
  | Name_DecodeByteVector x0 => DTuple "DecodeByteVector" [show_DecodeByteVectorError x0]
  | Name_Utf8 x0 => DTuple "Utf8" [show_FromUtf8Error x0]
  end.
(** src/decode/sections/custom.rs *)
Definition show_DecodeCustomSectionError (e : DecodeCustomSectionError) : dtree :=
  match e with
  | Cust_DecodeName x0 => DTuple "DecodeName" [show_DecodeNameError x0]
  | Cust_Io x0 => DTuple "Io" [debug_io x0]
  end.
(** src/decode/sections/data_count.rs *)
Definition show_DecodeDataCountSectionError (e : DecodeDataCountSectionError) : dtree :=
  match e with
  | DC_DecodeDataSegmentCount x0 => DTuple "DecodeDataSegmentCount" [show_DecodeU32Error x0]
  end.
(** src/decode/sections/data.rs *)
Definition show_DecodeDataSegmentError (e : DecodeDataSegmentError) : dtree :=
  match e with
  | Dat_DecodeBitfield x0 => DTuple "DecodeBitfield" [show_DecodeU32Error x0]
  | Dat_InvalidBitfield x0 => DTuple "InvalidBitfield" [DAtom (dec x0)]
  | Dat_DecodeOffsetExpr x0 => DTuple "DecodeOffsetExpr" [show_ParseExpressionError x0]
  | Dat_DecodeInitVector x0 => DTuple "DecodeInitVector" [show_DecodeByteVectorError x0]
  | Dat_DecodeMemIdx x0 => DTuple "DecodeMemIdx" [show_DecodeMemIdxError x0]
  end.
(** src/decode/sections/data.rs *)
Definition show_DecodeDataSectionError (e : DecodeDataSectionError) : dtree :=
  match e with
  | DataSec_DecodeList x0 => DTuple "DecodeList" [show_list_error "DecodeDataSegmentError" show_DecodeDataSegmentError x0]
  end.
(** src/decode/sections/element.rs *)
Definition show_DecodeElementKindError (e : DecodeElementKindError) : dtree :=
  match e with
  | EK_Io x0 => DTuple "Io" [debug_io x0]
  | EK_InvalidElemKind x0 => DTuple "InvalidElemKind" [DAtom (dec (Byte.to_N x0))]
  end.
(** src/decode/sections/element.rs *)
Definition show_DecodeElementError (e : DecodeElementError) : dtree :=
  match e with
  | El_DecodeBitfield x0 => DTuple "DecodeBitfield" [show_DecodeU32Error x0]
  | El_InvalidBitfield x0 => DTuple "InvalidBitfield" [DAtom (dec x0)]
  | El_DecodeOffsetExpression x0 => DTuple "DecodeOffsetExpression" [show_ParseExpressionError x0]
  | El_DecodeElementKind x0 => DTuple "DecodeElementKind" [show_DecodeElementKindError x0]
  | El_DecodeElementExpression x0 => DTuple "DecodeElementExpression" [show_ParseExpressionError x0]
  | El_DecodeTableIdx x0 => DTuple "DecodeTableIdx" [show_DecodeTableIdxError x0]
  | El_DecodeReferenceType x0 => DTuple "DecodeReferenceType" [show_DecodeRefTypeError x0]
  | El_DecodeInit x0 => DTuple "DecodeInit" [show_list_error "ParseExpressionError" show_ParseExpressionError x0]
  | El_DecodeFuncIdxVector x0 => DTuple "DecodeFuncIdxVector" [show_list_error "DecodeFuncIdxError" show_DecodeFuncIdxError x0]
  end.
(** src/decode/sections/element.rs *)
Definition show_DecodeElementSectionError (e : DecodeElementSectionError) : dtree :=
  match e with
  | ElemSec_DecodeList x0 => DTuple "DecodeList" [show_list_error "DecodeElementError" show_DecodeElementError x0]
  end.
(** src/decode/sections/export.rs *)
Definition show_InvalidExportDescMarkerByte (e : InvalidExportDescMarkerByte) : dtree := match e with InvalidExportDescMarker x => DTuple "InvalidExportDescMarkerByte" [DAtom (dec (Byte.to_N x))] end.
(** src/decode/sections/export.rs *)
Definition show_DecodeExportError (e : DecodeExportError) : dtree :=
  match e with
  | Exp_DecodeName x0 => DTuple "DecodeName" [show_DecodeNameError x0]
  | Exp_ReadDescriptorMarkerByte x0 => DTuple "ReadDescriptorMarkerByte" [debug_io x0]
  | Exp_DecodeIndex x0 => DTuple "DecodeIndex" [show_DecodeU32Error x0]
  | Exp_InvalidDescriptorMarkerByte x0 => DTuple "InvalidDescriptorMarkerByte" [show_InvalidExportDescMarkerByte x0]
  end.
(** src/decode/sections/export.rs *)
Definition show_DecodeExportSectionError (e : DecodeExportSectionError) : dtree :=
  match e with
  | ExportSec_DecodeList x0 => DTuple "DecodeList" [show_list_error "DecodeExportError" show_DecodeExportError x0]
  end.
(** src/decode/sections/function.rs *)
Definition show_DecodeFunctionSectionError (e : DecodeFunctionSectionError) : dtree :=
  match e with
  | FuncSec_DecodeList x0 => DTuple "DecodeList" [show_list_error "DecodeTypeIdxError" show_DecodeTypeIdxError x0]
  end.
(** src/decode/types/globaltype.rs *)
Definition show_InvalidMutabilityByteError (e : InvalidMutabilityByteError) : dtree := match e with InvalidMutabilityByte x => DTuple "InvalidMutabilityByteError" [DAtom (dec (Byte.to_N x))] end.
(** src/decode/types/globaltype.rs *)
Definition show_DecodeGlobalTypeError (e : DecodeGlobalTypeError) : dtree :=
  match e with
  | GT_DecodeValueType x0 => DTuple "DecodeValueType" [show_DecodeValTypeError x0]
  | GT_DecodeMutability x0 => DTuple "DecodeMutability" [debug_io x0]
  | GT_InvalidMutability x0 => DTuple "InvalidMutability" [show_InvalidMutabilityByteError x0]
  end.
(** src/decode/sections/global.rs *)
Definition show_DecodeGlobalError (e : DecodeGlobalError) : dtree :=
  match e with
  | Glob_DecodeGlobalType x0 => DTuple "DecodeGlobalType" [show_DecodeGlobalTypeError x0]
  | Glob_DecodeInit x0 => DTuple "DecodeInit" [show_ParseExpressionError x0]
  end.
(** src/decode/sections/global.rs *)
Definition show_DecodeGlobalSectionError (e : DecodeGlobalSectionError) : dtree :=
  match e with
  | GlobalSec_DecodeList x0 => DTuple "DecodeList" [show_list_error "DecodeGlobalError" show_DecodeGlobalError x0]
  end.
(** src/decode/types/limits.rs *)
Definition show_ParseLimitsError (e : ParseLimitsError) : dtree :=
  match e with
  | Lim_ReadFlagByte x0 => DTuple "ReadFlagByte" [debug_io x0]
  | Lim_UnexpectedFlagByte x0 => DTuple "UnexpectedFlagByte" [DAtom (dec (Byte.to_N x0))]
  | Lim_ReadMinLimit x0 => DTuple "ReadMinLimit" [show_DecodeU64Error x0]
  | Lim_ReadMaxLimit x0 => DTuple "ReadMaxLimit" [show_DecodeU64Error x0]
  end.
(** src/decode/types/memtype.rs *)
Definition show_DecodeMemoryTypeError (e : DecodeMemoryTypeError) : dtree := match e with MemTypeE x => DTuple "DecodeMemoryTypeError" [show_ParseLimitsError x] end.
(** src/decode/types/tabletype.rs *)
Definition show_DecodeTableTypeError (e : DecodeTableTypeError) : dtree :=
  match e with
  | TT_DecodeRefType x0 => DTuple "DecodeRefType" [show_DecodeRefTypeError x0]
  | TT_DecodeLimits x0 => DTuple "DecodeLimits" [show_ParseLimitsError x0]
  end.
(** src/decode/types/tagtype.rs *)
Definition show_DecodeTagTypeError (e : DecodeTagTypeError) : dtree :=
  match e with
  | Tag_ReadMarkerByte x0 => DTuple "ReadMarkerByte" [debug_io x0]
  | Tag_InvalidMarkerByte x0 => DTuple "InvalidMarkerByte" [DAtom (dec (Byte.to_N x0))]
  | Tag_DecodeTypeIndex x0 => DTuple "DecodeTypeIndex" [show_DecodeTypeIdxError x0]
  end.
(** src/decode/types/externtype.rs *)
Definition show_DecodeExternTypeError (e : DecodeExternTypeError) : dtree :=
  match e with
  | Ext_ReadMarkerByte x0 => DTuple "ReadMarkerByte" [debug_io x0]
  | Ext_InvalidMarkerByte x0 => DTuple "InvalidMarkerByte" [DAtom (dec (Byte.to_N x0))]
  | Ext_DecodeTypeIndex x0 => DTuple "DecodeTypeIndex" [show_DecodeTypeIdxError x0]
  | Ext_DecodeTableType x0 => DTuple "DecodeTableType" [show_DecodeTableTypeError x0]
  | Ext_DecodeMemoryType x0 => DTuple "DecodeMemoryType" [show_DecodeMemoryTypeError x0]
  | Ext_DecodeGlobalType x0 => DTuple "DecodeGlobalType" [show_DecodeGlobalTypeError x0]
  | Ext_DecodeTagType x0 => DTuple "DecodeTagType" [show_DecodeTagTypeError x0]
  end.
(** src/decode/sections/import.rs *)
Definition show_DecodeImportError (e : DecodeImportError) : dtree :=
  match e with
  | Imp_DecodeModuleName x0 => DTuple "DecodeModuleName" [show_DecodeNameError x0]
  | Imp_DecodeItemName x0 => DTuple "DecodeItemName" [show_DecodeNameError x0]
  | Imp_DecodeExternType x0 => DTuple "DecodeExternType" [show_DecodeExternTypeError x0]
  end.
(** src/decode/sections/import.rs *)
Definition show_DecodeImportSectionError (e : DecodeImportSectionError) : dtree :=
  match e with
  | ImportSec_DecodeList x0 => DTuple "DecodeList" [show_list_error "DecodeImportError" show_DecodeImportError x0]
  end.
(** src/decode/sections/memory.rs *)
Definition show_DecodeMemorySectionError (e : DecodeMemorySectionError) : dtree :=
  match e with
  | MemSec_DecodeList x0 => DTuple "DecodeList" [show_list_error "DecodeMemoryTypeError" show_DecodeMemoryTypeError x0]
  end.
(** src/decode/module.rs *)
Definition show_InvalidSectionIdError (e : InvalidSectionIdError) : dtree := match e with InvalidSectionId x => DTuple "InvalidSectionIdError" [DAtom (dec (Byte.to_N x))] end.
(** src/decode/module.rs *)
Definition show_DecodeSectionHeaderError (e : DecodeSectionHeaderError) : dtree :=
  match e with
  | Hdr_ReadSectionIdByte x0 => DTuple "ReadSectionIdByte" [debug_io x0]
  | Hdr_InvalidSectionId x0 => DTuple "InvalidSectionId" [show_InvalidSectionIdError x0]
  | Hdr_DecodeSectionSize x0 => DTuple "DecodeSectionSize" [show_DecodeU32Error x0]
  end.
(** src/decode/sections/start.rs *)
Definition show_DecodeStartSectionError (e : DecodeStartSectionError) : dtree := match e with StartSecE x => DTuple "DecodeStartSectionError" [show_DecodeFuncIdxError x] end.
(** src/decode/sections/table.rs *)
Definition show_DecodeTableError (e : DecodeTableError) : dtree :=
  match e with
  | Tbl_Io x0 => DTuple "Io" [debug_io x0]
  | Tbl_UnexpectedMarkerByte x0 => DTuple "UnexpectedMarkerByte" [DAtom (dec (Byte.to_N x0))]
  | Tbl_DecodeTableType x0 => DTuple "DecodeTableType" [show_DecodeTableTypeError x0]
  | Tbl_DecodeExpression x0 => DTuple "DecodeExpression" [show_ParseExpressionError x0]
  end.
(** src/decode/sections/table.rs *)
Definition show_DecodeTableSectionError (e : DecodeTableSectionError) : dtree :=
  match e with
  | TableSec_DecodeList x0 => DTuple "DecodeList" [show_list_error "DecodeTableError" show_DecodeTableError x0]
  end.
(** src/decode/sections/tag.rs *)
Definition show_DecodeTagSectionError (e : DecodeTagSectionError) : dtree :=
  match e with
  | TagSec_DecodeList x0 => DTuple "DecodeList" [show_list_error "DecodeTagTypeError" show_DecodeTagTypeError x0]
  end.
(** src/decode/types/comptype.rs *)
Definition show_DecodeStorageTypeError (e : DecodeStorageTypeError) : dtree :=
  match e with
  | ST_ReadMarkerByte x0 => DTuple "ReadMarkerByte" [debug_io x0]
  | ST_DecodeValTypeOrPackType x0 x1 => DStruct "DecodeValTypeOrPackType" [("marker", DAtom (dec (Byte.to_N x0))); ("source", show_DecodeValTypeError x1)]
  end.
(** src/decode/types/comptype.rs *)
Definition show_DecodeFieldTypeError (e : DecodeFieldTypeError) : dtree :=
  match e with
  | FT_DecodeStorageType x0 => DTuple "DecodeStorageType" [show_DecodeStorageTypeError x0]
  | FT_ReadMutabilityMarkerByte x0 => DTuple "ReadMutabilityMarkerByte" [debug_io x0]
  | FT_DecodeMutability x0 => DTuple "DecodeMutability" [show_InvalidMutabilityByteError x0]
  end.
(** src/decode/types/resulttype.rs *)
Definition show_DecodeResultTypeError (e : DecodeResultTypeError) : dtree :=
  match e with
  | RTE_DecodeList x0 => DTuple "DecodeList" [show_list_error "DecodeValTypeError" show_DecodeValTypeError x0]
  end.
(** src/decode/types/comptype.rs *)
Definition show_DecodeCompTypeError (e : DecodeCompTypeError) : dtree :=
  match e with
  | CT_ReadMarkerByte x0 => DTuple "ReadMarkerByte" [debug_io x0]
  | CT_InvalidMarkerByte x0 => DTuple "InvalidMarkerByte" [DAtom (dec (Byte.to_N x0))]
  | CT_DecodeStruct x0 => DTuple "DecodeStruct" [show_list_error "DecodeFieldTypeError" show_DecodeFieldTypeError x0]
  | CT_DecodeFuncParameters x0 => DTuple "DecodeFuncParameters" [show_DecodeResultTypeError x0]
  | CT_DecodeFuncResults x0 => DTuple "DecodeFuncResults" [show_DecodeResultTypeError x0]
  | CT_DecodeFieldType x0 => DTuple "DecodeFieldType" [show_DecodeFieldTypeError x0]
  end.
(** src/decode/types/rectype.rs *)
Definition show_DecodeSubTypeError (e : DecodeSubTypeError) : dtree :=
  match e with
  | SubT_Io x0 => DTuple "Io" [debug_io x0]
  | SubT_DecodeSupertypes x0 => DTuple "DecodeSupertypes" [show_list_error "DecodeTypeIdxError" show_DecodeTypeIdxError x0]
  | SubT_DecodeCompType x0 => DTuple "DecodeCompType" [show_DecodeCompTypeError x0]
  end.
(** src/decode/types/rectype.rs *)
Definition show_DecodeRecTypeError (e : DecodeRecTypeError) : dtree :=
  match e with
  | Rec_Io x0 => DTuple "Io" [debug_io x0]
  | Rec_DecodeSubtypes x0 => DTuple "DecodeSubtypes" [show_list_error "DecodeSubTypeError" show_DecodeSubTypeError x0]
  | Rec_DecodeSubtype x0 => DTuple "DecodeSubtype" [show_DecodeSubTypeError x0]
  end.
(** src/decode/sections/type.rs *)
Definition show_DecodeTypeSectionError (e : DecodeTypeSectionError) : dtree :=
  match e with
  | TypeSec_DecodeList x0 => DTuple "DecodeList" [show_list_error "DecodeRecTypeError" show_DecodeRecTypeError x0]
  end.
(** src/decode/module.rs *)
Definition show_ParsePreambleError (e : ParsePreambleError) : dtree :=
  match e with
  | Pre_Io x0 => DTuple "Io" [debug_io x0]
  | Pre_Unexpected x0 => DTuple "Unexpected" [DList (map (fun y1 => DAtom (dec (Byte.to_N y1))) x0)]
  end.
(** src/decode/module.rs *)
Definition show_DecodeModuleError (e : DecodeModuleError) : dtree :=
  match e with
  | DM_ParsePreamble x0 => DTuple "ParsePreamble" [show_ParsePreambleError x0]
  | DM_CodeFuncEntriesLenMismatch x0 x1 => DStruct "CodeFuncEntriesLenMismatch" [("codes_len", DAtom (dec x0)); ("funcs_len", DAtom (dec x1))]
  | DM_DataCountMismatch x0 x1 => DStruct "DataCountMismatch" [("datas_len", DAtom (dec x0)); ("data_count", DAtom (dec x1))]
  | DM_SectionOutOfOrder x0 x1 => DStruct "SectionOutOfOrder" [("current", show_SectionKind x0); ("previous", show_SectionKind x1)]
  | DM_DuplicateSection x0 => DTuple "DuplicateSection" [show_SectionKind x0]
  | DM_SectionSizeMismatch x0 x1 x2 => DStruct "SectionSizeMismatch" [("section_kind", show_SectionKind x0); ("declared", DAtom (dec x1)); ("got", DAtom (dec x2))]
  | DM_DataCountDatasLenMismatch x0 x1 => DStruct "DataCountDatasLenMismatch" [("datas_len", DAtom (dec x0)); ("data_count", DAtom (dec x1))]
  | DM_DecodeDataCount => DTuple "DecodeDataCount" [DTuple "TryFromIntError" [DAtom "()"]]
  | DM_DataIndexWithoutDataCount => DAtom "DataIndexWithoutDataCount"
  | DM_DecodeSectionHeader x0 => DTuple "DecodeSectionHeader" [show_DecodeSectionHeaderError x0]
  | DM_DecodeCustomSection x0 => DTuple "DecodeCustomSection" [show_DecodeCustomSectionError x0]
  | DM_DecodeTypeSection x0 => DTuple "DecodeTypeSection" [show_DecodeTypeSectionError x0]
  | DM_DecodeImportSection x0 => DTuple "DecodeImportSection" [show_DecodeImportSectionError x0]
  | DM_DecodeFunctionSection x0 => DTuple "DecodeFunctionSection" [show_DecodeFunctionSectionError x0]
  | DM_DecodeTableSection x0 => DTuple "DecodeTableSection" [show_DecodeTableSectionError x0]
  | DM_DecodeMemorySection x0 => DTuple "DecodeMemorySection" [show_DecodeMemorySectionError x0]
  | DM_DecodeGlobalSection x0 => DTuple "DecodeGlobalSection" [show_DecodeGlobalSectionError x0]
  | DM_DecodeExportSection x0 => DTuple "DecodeExportSection" [show_DecodeExportSectionError x0]
  | DM_DecodeStartSection x0 => DTuple "DecodeStartSection" [show_DecodeStartSectionError x0]
  | DM_DecodeElementSection x0 => DTuple "DecodeElementSection" [show_DecodeElementSectionError x0]
  | DM_DecodeDatacountSection x0 => DTuple "DecodeDatacountSection" [show_DecodeDataCountSectionError x0]
  | DM_DecodeCodeSection x0 => DTuple "DecodeCodeSection" [show_DecodeCodeSectionError x0]
  | DM_DecodeDataSection x0 => DTuple "DecodeDataSection" [show_DecodeDataSectionError x0]
  | DM_DecodeTagSection x0 => DTuple "DecodeTagSection" [show_DecodeTagSectionError x0]
  end.
End Shown.
