(** [{module:#?}] (wadec-cli/src/main.rs:26) and [{module:?}]: the [Debug]
    implementations that [#[derive(Debug)]] generates for the public types of
    src/core, on top of core::fmt's builders.

    Not modelled: what std prints for a floating-point number, a string, an
    io::Error and a Utf8Error (class [Texts]). *)
From Verif Require Import Model.Prelude Model.Io Model.Ast Model.Errors Model.Display.
From Coq Require Import String Ascii Strings.Byte.
Local Open Scope string_scope.

(** [&dyn std::error::Error]: what Display prints, and [source()] *)
Inductive dyn_error : Type := DynError (display : string) (source : option dyn_error).
Definition e_display (e : dyn_error) : string := match e with DynError d _ => d end.
Definition e_source (e : dyn_error) : option dyn_error := match e with DynError _ s => s end.

(** ** core::fmt *)
(** what a [Debug] implementation asks the formatter for: [write_str],
    [debug_tuple], [debug_struct], [debug_list];
    [DPath]: [format_args!("{}::{:#?}", prefix, t)] *)
Inductive dtree : Type :=
| DAtom (text : string)
| DTuple (name : string) (fields : list dtree)
| DStruct (name : string) (fields : list (string * dtree))
| DList (entries : list dtree)
| DPath (prefix : string) (t : dtree).

(** What std prints (not modelled). *)
Class Texts := {
  io_view : io_error -> dyn_error;              (* io::Error as an Error *)
  utf8_message : list byte -> string;           (* Display of FromUtf8Error; its source() is None *)
  debug_io : io_error -> dtree;                 (* Debug of an io::Error, of the Utf8Error in a FromUtf8Error *)
  debug_utf8_error : list byte -> dtree;
  debug_f32 : f32 -> string;                    (* Debug of an f32, of an f64, of a str *)
  debug_f64 : f64 -> string;
  debug_str : rstring -> string
}.

Definition newline : ascii := ascii_of_nat 10.
(** core::fmt::builders::PadAdapter::write_str: four spaces at the start of
    every line.  The adapter's [on_newline] starts as true. *)
Fixpoint pad (on_newline : bool) (s : string) : string :=
  match s with
  | "" => ""
  | String c s' => (if on_newline then "    " else "") ++ String c (pad (Ascii.eqb c newline) s')
  end.
Definition strings : list string -> string := fold_right append "".
(** core::fmt::builders, with [{:#?}]: DebugTuple::field and finish,
    DebugStruct::field and finish, DebugList::entry and finish.  Every field is
    written, with a comma and a newline, to a PadAdapter of its own. *)
Fixpoint pretty (t : dtree) : string :=
  match t with
  | DAtom s => s
  | DTuple name [] => name
  | DTuple name fs => name ++ "(" ++ nl ++ strings (map (fun f => pad true (pretty f ++ "," ++ nl)) fs) ++ ")"
  | DStruct name [] => name
  | DStruct name fs => name ++ " {" ++ nl ++ strings (map (fun nf => pad true (fst nf ++ ": " ++ pretty (snd nf) ++ "," ++ nl)) fs) ++ "}"
  | DList [] => "[]"
  | DList es => "[" ++ nl ++ strings (map (fun e => pad true (pretty e ++ "," ++ nl)) es) ++ "]"
  | DPath prefix t => prefix ++ "::" ++ pretty t
  end.
(** core::fmt::builders, with [{:?}]: the same functions, when
    [Formatter::alternate] is false.  (The comma after the only field of a tuple
    without a name is left out: no such tuple is printed.)  A [{:#?}] inside
    [format_args!] is pretty-printed all the same, and not indented. *)
Fixpoint compact (t : dtree) : string :=
  match t with
  | DAtom s => s
  | DTuple name [] => name
  | DTuple name fs => name ++ "(" ++ String.concat ", " (map compact fs) ++ ")"
  | DStruct name [] => name
  | DStruct name fs => name ++ " { " ++ String.concat ", " (map (fun nf => fst nf ++ ": " ++ compact (snd nf)) fs) ++ " }"
  | DList es => "[" ++ String.concat ", " (map compact es) ++ "]"
  | DPath prefix t => prefix ++ "::" ++ pretty t
  end.

(** ** Debug of std types: integers, [bool], [Vec]/arrays, [Option] *)
Definition d_N (n : N) : dtree := DAtom (dec n).
Definition d_Z (z : Z) : dtree := DAtom (decZ z).
Definition d_byte (b : byte) : dtree := d_N (Byte.to_N b).
Definition d_bool (b : bool) : dtree := DAtom (if b then "true" else "false").
Definition d_list {A} (d : A -> dtree) (l : list A) : dtree := DList (map d l).
Definition d_option {A} (d : A -> dtree) (o : option A) : dtree :=
  match o with None => DAtom "None" | Some a => DTuple "Some" [d a] end.
(** core::fmt: Debug of [u8] *)
Definition d_bytes : list byte -> dtree := d_list d_byte.

(** ** [#[derive(Debug)]] *)
(** src/core/indices.rs:5-21: [TypeIdx(7)] *)
Definition d_idx (newtype : string) (x : N) : dtree := DTuple newtype [d_N x].
(** src/core/types/numtype.rs:16, vectype.rs:15 *)
Definition d_numtype (t : NumType) : dtree :=
  DAtom match t with Int32 => "Int32" | Int64 => "Int64" | Float32 => "Float32" | Float64 => "Float64" end.
Definition d_vectype (t : VecType) : dtree := DAtom match t with V128 => "V128" end.
(** src/core/types/heaptype.rs:51, 45 *)
Definition d_absheaptype (t : AbsHeapType) : dtree := DAtom (debug_absheaptype t).
Definition d_heaptype (t : HeapType) : dtree :=
  match t with Ht a => DTuple "Ht" [d_absheaptype a] | HtIdx x => DTuple "TypeIdx" [d_N x] end.
(** src/core/types/reftype.rs:10 *)
Definition d_reftype (t : RefType) : dtree :=
  DStruct "RefType" [("nullable", d_bool (nullable t)); ("ht", d_heaptype (ht t))].
(** src/core/types/valtype.rs:12 *)
Definition d_valtype (t : ValType) : dtree :=
  match t with VT_Num t => DTuple "Num" [d_numtype t] | VT_Vec t => DTuple "Vec" [d_vectype t] | VT_Ref t => DTuple "Ref" [d_reftype t] end.
(** src/core/types/globaltype.rs:12, 9 *)
Definition d_mut (m : Mut) : dtree := DAtom (debug_mut m).
Definition d_globaltype (t : GlobalType) : dtree := DTuple "GlobalType" [d_mut (gt_mut t); d_valtype (gt_type t)].
(** src/core/types/comptype.rs:31, 25, 22, 10 *)
Definition d_packtype (t : PackType) : dtree := DAtom match t with PT_I8 => "I8" | PT_I16 => "I16" end.
Definition d_storagetype (t : StorageType) : dtree :=
  match t with ST_Val t => DTuple "ValType" [d_valtype t] | ST_Pack t => DTuple "PackType" [d_packtype t] end.
Definition d_fieldtype (t : FieldType) : dtree := DTuple "FieldType" [d_mut (ft_mut t); d_storagetype (ft_type t)].
Definition d_comptype (t : CompType) : dtree :=
  match t with
  | CT_Struct fs => DTuple "Struct" [d_list d_fieldtype fs]
  | CT_Array f => DTuple "Array" [d_fieldtype f]
  | CT_Func ps rs => DStruct "Func" [("parameters", d_list d_valtype ps); ("results", d_list d_valtype rs)]
  end.
(** src/core/types/rectype.rs:14, 11 *)
Definition d_subtype (t : SubType) : dtree :=
  DStruct "SubType" [("is_final", d_bool (is_final t)); ("supertypes", d_list (d_idx "TypeIdx") (supertypes t)); ("comptype", d_comptype (comptype t))].
Definition d_rectype (t : RecType) : dtree := DTuple "RecType" [d_list d_subtype t].
(** src/core/types/addrtype.rs:6, limits.rs:9, memtype.rs:12, tabletype.rs:11, tagtype.rs:10 *)
Definition d_addrtype (t : AddrType) : dtree := DAtom match t with AT_I32 => "I32" | AT_I64 => "I64" end.
Definition d_limits (l : Limits) : dtree :=
  DStruct "Limits" [("address_type", d_addrtype (address_type l)); ("min", d_N (lim_min l)); ("max", d_option d_N (lim_max l))].
Definition d_memtype (t : MemType) : dtree := DStruct "MemType" [("limits", d_limits (mt_limits t))].
Definition d_tabletype (t : TableType) : dtree :=
  DStruct "TableType" [("reftype", d_reftype (tt_reftype t)); ("limits", d_limits (tt_limits t))].
Definition d_tagtype (t : TagType) : dtree := DTuple "TagType" [d_idx "TypeIdx" (tag_type t)].
(** src/core/types/externtype.rs:10 *)
Definition d_externtype (t : ExternType) : dtree :=
  match t with
  | ET_Func x => DTuple "Func" [d_idx "TypeIdx" x]
  | ET_Table t => DTuple "Table" [d_tabletype t]
  | ET_Mem t => DTuple "Mem" [d_memtype t]
  | ET_Global t => DTuple "Global" [d_globaltype t]
  | ET_Tag t => DTuple "Tag" [d_tagtype t]
  end.

(** src/core/instruction.rs:526, 537, 540, 547 *)
Definition d_memarg (m : Memarg) : dtree :=
  DStruct "Memarg" [("mem_idx", d_idx "MemIdx" (ma_mem m)); ("align", d_N (ma_align m)); ("offset", d_N (ma_offset m))].
Definition d_lane (b : LaneIdx) : dtree := DTuple "LaneIdx" [d_byte b].
Definition d_blocktype (t : BlockType) : dtree :=
  match t with BT_Empty => DAtom "Empty" | BT_T t => DTuple "T" [d_valtype t] | BT_I x => DTuple "I" [d_N x] end.
Definition d_catch (c : Catch) : dtree :=
  match c with
  | C_Catch x l => DTuple "Catch" [d_idx "TagIdx" x; d_idx "LabelIdx" l]
  | C_CatchRef x l => DTuple "CatchRef" [d_idx "TagIdx" x; d_idx "LabelIdx" l]
  | C_CatchAll l => DTuple "CatchAll" [d_idx "LabelIdx" l]
  | C_CatchAllRef l => DTuple "CatchAllRef" [d_idx "LabelIdx" l]
  end.

(** src/core/instruction.rs:8-520: the name of a variant *)
Definition instr_name (i : instr) : string :=
  match i with
  | I_Unreachable => "Unreachable" | I_Nop => "Nop" | I_Block _ _ => "Block" | I_Loop _ _ => "Loop" | I_If _ _ _ => "If" | I_Br _ => "Br"
  | I_BrIf _ => "BrIf" | I_BrTable _ _ => "BrTable" | I_BrOnNull _ => "BrOnNull" | I_BrOnNonNull _ => "BrOnNonNull" | I_BrOnCast _ _ _ => "BrOnCast"
  | I_BrOnCastFail _ _ _ => "BrOnCastFail" | I_Call _ => "Call" | I_CallRef _ => "CallRef" | I_CallIndirect _ _ => "CallIndirect"
  | I_Return => "Return" | I_ReturnCall _ => "ReturnCall" | I_ReturnCallRef _ => "ReturnCallRef" | I_ReturnCallIndirect _ _ => "ReturnCallIndirect"
  | I_Throw _ => "Throw" | I_ThrowRef => "ThrowRef" | I_TryTable _ _ _ => "TryTable" | I_RefFunc _ => "RefFunc" | I_RefNull _ => "RefNull"
  | I_RefIsNull => "RefIsNull" | I_RefAsNonNull => "RefAsNonNull" | I_RefEq => "RefEq" | I_RefTest _ => "RefTest" | I_RefCast _ => "RefCast"
  | I_StructNew _ => "StructNew" | I_StructNewDefault _ => "StructNewDefault" | I_StructGet _ _ => "StructGet" | I_StructGetS _ _ => "StructGetS"
  | I_StructGetU _ _ => "StructGetU" | I_StructSet _ _ => "StructSet" | I_ArrayNew _ => "ArrayNew" | I_ArrayNewDefault _ => "ArrayNewDefault"
  | I_ArrayNewFixed _ _ => "ArrayNewFixed" | I_ArrayNewData _ _ => "ArrayNewData" | I_ArrayNewElem _ _ => "ArrayNewElem" | I_ArrayGet _ => "ArrayGet"
  | I_ArrayGetS _ => "ArrayGetS" | I_ArrayGetU _ => "ArrayGetU" | I_ArraySet _ => "ArraySet" | I_ArrayLen => "ArrayLen" | I_ArrayFill _ => "ArrayFill"
  | I_ArrayCopy _ _ => "ArrayCopy" | I_ArrayInitData _ _ => "ArrayInitData" | I_ArrayInitElem _ _ => "ArrayInitElem"
  | I_AnyConvertExtern => "AnyConvertExtern" | I_ExternConvertAny => "ExternConvertAny" | I_RefI31 => "RefI31" | I_I31GetS => "I31GetS"
  | I_I31GetU => "I31GetU" | I_Drop => "Drop" | I_Select _ => "Select" | I_LocalGet _ => "LocalGet" | I_LocalSet _ => "LocalSet"
  | I_LocalTee _ => "LocalTee" | I_GlobalGet _ => "GlobalGet" | I_GlobalSet _ => "GlobalSet" | I_TableGet _ => "TableGet" | I_TableSet _ => "TableSet"
  | I_TableInit _ _ => "TableInit" | I_ElemDrop _ => "ElemDrop" | I_TableCopy _ _ => "TableCopy" | I_TableGrow _ => "TableGrow"
  | I_TableSize _ => "TableSize" | I_TableFill _ => "TableFill" | I_I32Load _ => "I32Load" | I_I64Load _ => "I64Load" | I_F32Load _ => "F32Load"
  | I_F64Load _ => "F64Load" | I_I32Load8s _ => "I32Load8s" | I_I32Load8u _ => "I32Load8u" | I_I32Load16s _ => "I32Load16s"
  | I_I32Load16u _ => "I32Load16u" | I_I64Load8s _ => "I64Load8s" | I_I64Load8u _ => "I64Load8u" | I_I64Load16s _ => "I64Load16s"
  | I_I64Load16u _ => "I64Load16u" | I_I64Load32s _ => "I64Load32s" | I_I64Load32u _ => "I64Load32u" | I_I32Store _ => "I32Store"
  | I_I64Store _ => "I64Store" | I_F32Store _ => "F32Store" | I_F64Store _ => "F64Store" | I_I32Store8 _ => "I32Store8"
  | I_I32Store16 _ => "I32Store16" | I_I64Store8 _ => "I64Store8" | I_I64Store16 _ => "I64Store16" | I_I64Store32 _ => "I64Store32"
  | I_MemorySize _ => "MemorySize" | I_MemoryGrow _ => "MemoryGrow" | I_MemoryInit _ _ => "MemoryInit" | I_DataDrop _ => "DataDrop"
  | I_MemoryCopy _ _ => "MemoryCopy" | I_MemoryFill _ => "MemoryFill" | I_I32Const _ => "I32Const" | I_I64Const _ => "I64Const"
  | I_F32Const _ => "F32Const" | I_F64Const _ => "F64Const" | I_I32Eqz => "I32Eqz" | I_I32Eq => "I32Eq" | I_I32Ne => "I32Ne" | I_I32LtS => "I32LtS"
  | I_I32LtU => "I32LtU" | I_I32GtS => "I32GtS" | I_I32GtU => "I32GtU" | I_I32LeS => "I32LeS" | I_I32LeU => "I32LeU" | I_I32GeS => "I32GeS"
  | I_I32GeU => "I32GeU" | I_I64Eqz => "I64Eqz" | I_I64Eq => "I64Eq" | I_I64Ne => "I64Ne" | I_I64LtS => "I64LtS" | I_I64LtU => "I64LtU"
  | I_I64GtS => "I64GtS" | I_I64GtU => "I64GtU" | I_I64LeS => "I64LeS" | I_I64LeU => "I64LeU" | I_I64GeS => "I64GeS" | I_I64GeU => "I64GeU"
  | I_F32Eq => "F32Eq" | I_F32Ne => "F32Ne" | I_F32Lt => "F32Lt" | I_F32Gt => "F32Gt" | I_F32Le => "F32Le" | I_F32Ge => "F32Ge" | I_F64Eq => "F64Eq"
  | I_F64Ne => "F64Ne" | I_F64Lt => "F64Lt" | I_F64Gt => "F64Gt" | I_F64Le => "F64Le" | I_F64Ge => "F64Ge" | I_I32Clz => "I32Clz"
  | I_I32Ctz => "I32Ctz" | I_I32Popcnt => "I32Popcnt" | I_I32Add => "I32Add" | I_I32Sub => "I32Sub" | I_I32Mul => "I32Mul" | I_I32DivS => "I32DivS"
  | I_I32DivU => "I32DivU" | I_I32RemS => "I32RemS" | I_I32RemU => "I32RemU" | I_I32And => "I32And" | I_I32Or => "I32Or" | I_I32Xor => "I32Xor"
  | I_I32Shl => "I32Shl" | I_I32ShrS => "I32ShrS" | I_I32ShrU => "I32ShrU" | I_I32Rotl => "I32Rotl" | I_I32Rotr => "I32Rotr" | I_I64Clz => "I64Clz"
  | I_I64Ctz => "I64Ctz" | I_I64Popcnt => "I64Popcnt" | I_I64Add => "I64Add" | I_I64Sub => "I64Sub" | I_I64Mul => "I64Mul" | I_I64DivS => "I64DivS"
  | I_I64DivU => "I64DivU" | I_I64RemS => "I64RemS" | I_I64RemU => "I64RemU" | I_I64And => "I64And" | I_I64Or => "I64Or" | I_I64Xor => "I64Xor"
  | I_I64Shl => "I64Shl" | I_I64ShrS => "I64ShrS" | I_I64ShrU => "I64ShrU" | I_I64Rotl => "I64Rotl" | I_I64Rotr => "I64Rotr" | I_F32Abs => "F32Abs"
  | I_F32Neg => "F32Neg" | I_F32Ceil => "F32Ceil" | I_F32Floor => "F32Floor" | I_F32Trunc => "F32Trunc" | I_F32Nearest => "F32Nearest"
  | I_F32Sqrt => "F32Sqrt" | I_F32Add => "F32Add" | I_F32Sub => "F32Sub" | I_F32Mul => "F32Mul" | I_F32Div => "F32Div" | I_F32Min => "F32Min"
  | I_F32Max => "F32Max" | I_F32Copysign => "F32Copysign" | I_F64Abs => "F64Abs" | I_F64Neg => "F64Neg" | I_F64Ceil => "F64Ceil"
  | I_F64Floor => "F64Floor" | I_F64Trunc => "F64Trunc" | I_F64Nearest => "F64Nearest" | I_F64Sqrt => "F64Sqrt" | I_F64Add => "F64Add"
  | I_F64Sub => "F64Sub" | I_F64Mul => "F64Mul" | I_F64Div => "F64Div" | I_F64Min => "F64Min" | I_F64Max => "F64Max" | I_F64Copysign => "F64Copysign"
  | I_I32WrapI64 => "I32WrapI64" | I_I32TruncF32S => "I32TruncF32S" | I_I32TruncF32U => "I32TruncF32U" | I_I32TruncF64S => "I32TruncF64S"
  | I_I32TruncF64U => "I32TruncF64U" | I_I64ExtendI32S => "I64ExtendI32S" | I_I64ExtendI32U => "I64ExtendI32U" | I_I64TruncF32S => "I64TruncF32S"
  | I_I64TruncF32U => "I64TruncF32U" | I_I64TruncF64S => "I64TruncF64S" | I_I64TruncF64U => "I64TruncF64U" | I_F32ConvertI32S => "F32ConvertI32S"
  | I_F32ConvertI32U => "F32ConvertI32U" | I_F32ConvertI64S => "F32ConvertI64S" | I_F32ConvertI64U => "F32ConvertI64U"
  | I_F32DemoteF64 => "F32DemoteF64" | I_F64ConvertI32S => "F64ConvertI32S" | I_F64ConvertI32U => "F64ConvertI32U"
  | I_F64ConvertI64S => "F64ConvertI64S" | I_F64ConvertI64U => "F64ConvertI64U" | I_F64PromoteF32 => "F64PromoteF32"
  | I_I32ReinterpretF32 => "I32ReinterpretF32" | I_I64ReinterpretF64 => "I64ReinterpretF64" | I_F32ReinterpretI32 => "F32ReinterpretI32"
  | I_F64ReinterpretI64 => "F64ReinterpretI64" | I_I32Extend8S => "I32Extend8S" | I_I32Extend16S => "I32Extend16S" | I_I64Extend8S => "I64Extend8S"
  | I_I64Extend16S => "I64Extend16S" | I_I64Extend32S => "I64Extend32S" | I_I32TruncSatF32S => "I32TruncSatF32S"
  | I_I32TruncSatF32U => "I32TruncSatF32U" | I_I32TruncSatF64S => "I32TruncSatF64S" | I_I32TruncSatF64U => "I32TruncSatF64U"
  | I_I64TruncSatF32S => "I64TruncSatF32S" | I_I64TruncSatF32U => "I64TruncSatF32U" | I_I64TruncSatF64S => "I64TruncSatF64S"
  | I_I64TruncSatF64U => "I64TruncSatF64U" | I_V128Load _ => "V128Load" | I_V128Load8x8S _ => "V128Load8x8S" | I_V128Load8x8U _ => "V128Load8x8U"
  | I_V128Load16x4S _ => "V128Load16x4S" | I_V128Load16x4U _ => "V128Load16x4U" | I_V128Load32x2S _ => "V128Load32x2S"
  | I_V128Load32x2U _ => "V128Load32x2U" | I_V128Load8Splat _ => "V128Load8Splat" | I_V128Load16Splat _ => "V128Load16Splat"
  | I_V128Load32Splat _ => "V128Load32Splat" | I_V128Load64Splat _ => "V128Load64Splat" | I_V128Load32Zero _ => "V128Load32Zero"
  | I_V128Load64Zero _ => "V128Load64Zero" | I_V128Store _ => "V128Store" | I_V128Load8Lane _ _ => "V128Load8Lane"
  | I_V128Load16Lane _ _ => "V128Load16Lane" | I_V128Load32Lane _ _ => "V128Load32Lane" | I_V128Load64Lane _ _ => "V128Load64Lane"
  | I_V128Store8Lane _ _ => "V128Store8Lane" | I_V128Store16Lane _ _ => "V128Store16Lane" | I_V128Store32Lane _ _ => "V128Store32Lane"
  | I_V128Store64Lane _ _ => "V128Store64Lane" | I_V128Const _ => "V128Const" | I_I8x16Shuffle _ => "I8x16Shuffle"
  | I_I8x16ExtractLaneS _ => "I8x16ExtractLaneS" | I_I8x16ExtractLaneU _ => "I8x16ExtractLaneU" | I_I8x16ReplaceLane _ => "I8x16ReplaceLane"
  | I_I16x8ExtractLaneS _ => "I16x8ExtractLaneS" | I_I16x8ExtractLaneU _ => "I16x8ExtractLaneU" | I_I16x8ReplaceLane _ => "I16x8ReplaceLane"
  | I_I32x4ExtractLane _ => "I32x4ExtractLane" | I_I32x4ReplaceLane _ => "I32x4ReplaceLane" | I_I64x2ExtractLane _ => "I64x2ExtractLane"
  | I_I64x2ReplaceLane _ => "I64x2ReplaceLane" | I_F32x4ExtractLane _ => "F32x4ExtractLane" | I_F32x4ReplaceLane _ => "F32x4ReplaceLane"
  | I_F64x2ExtractLane _ => "F64x2ExtractLane" | I_F64x2ReplaceLane _ => "F64x2ReplaceLane" | I_I8x16Swizzle => "I8x16Swizzle"
  | I_I8x16RelaxedSwizzle => "I8x16RelaxedSwizzle" | I_I8x16Splat => "I8x16Splat" | I_I16x8Splat => "I16x8Splat" | I_I32x4Splat => "I32x4Splat"
  | I_I64x2Splat => "I64x2Splat" | I_F32x4Splat => "F32x4Splat" | I_F64x2Splat => "F64x2Splat" | I_I8x16Eq => "I8x16Eq" | I_I8x16Ne => "I8x16Ne"
  | I_I8x16LtS => "I8x16LtS" | I_I8x16LtU => "I8x16LtU" | I_I8x16GtS => "I8x16GtS" | I_I8x16GtU => "I8x16GtU" | I_I8x16LeS => "I8x16LeS"
  | I_I8x16LeU => "I8x16LeU" | I_I8x16GeS => "I8x16GeS" | I_I8x16GeU => "I8x16GeU" | I_I16x8Eq => "I16x8Eq" | I_I16x8Ne => "I16x8Ne"
  | I_I16x8LtS => "I16x8LtS" | I_I16x8LtU => "I16x8LtU" | I_I16x8GtS => "I16x8GtS" | I_I16x8GtU => "I16x8GtU" | I_I16x8LeS => "I16x8LeS"
  | I_I16x8LeU => "I16x8LeU" | I_I16x8GeS => "I16x8GeS" | I_I16x8GeU => "I16x8GeU" | I_I32x4Eq => "I32x4Eq" | I_I32x4Ne => "I32x4Ne"
  | I_I32x4LtS => "I32x4LtS" | I_I32x4LtU => "I32x4LtU" | I_I32x4GtS => "I32x4GtS" | I_I32x4GtU => "I32x4GtU" | I_I32x4LeS => "I32x4LeS"
  | I_I32x4LeU => "I32x4LeU" | I_I32x4GeS => "I32x4GeS" | I_I32x4GeU => "I32x4GeU" | I_I64x2Eq => "I64x2Eq" | I_I64x2Ne => "I64x2Ne"
  | I_I64x2LtS => "I64x2LtS" | I_I64x2GtS => "I64x2GtS" | I_I64x2LeS => "I64x2LeS" | I_I64x2GeS => "I64x2GeS" | I_F32x4Eq => "F32x4Eq"
  | I_F32x4Ne => "F32x4Ne" | I_F32x4Lt => "F32x4Lt" | I_F32x4Gt => "F32x4Gt" | I_F32x4Le => "F32x4Le" | I_F32x4Ge => "F32x4Ge"
  | I_F64x2Eq => "F64x2Eq" | I_F64x2Ne => "F64x2Ne" | I_F64x2Lt => "F64x2Lt" | I_F64x2Gt => "F64x2Gt" | I_F64x2Le => "F64x2Le"
  | I_F64x2Ge => "F64x2Ge" | I_V128Not => "V128Not" | I_V128And => "V128And" | I_V128AndNot => "V128AndNot" | I_V128Or => "V128Or"
  | I_V128Xor => "V128Xor" | I_V128Bitselect => "V128Bitselect" | I_I8x16RelaxedLaneSelect => "I8x16RelaxedLaneSelect"
  | I_I16x8RelaxedLaneSelect => "I16x8RelaxedLaneSelect" | I_I32x4RelaxedLaneSelect => "I32x4RelaxedLaneSelect"
  | I_I64x2RelaxedLaneSelect => "I64x2RelaxedLaneSelect" | I_V128AnyTrue => "V128AnyTrue" | I_I8x16Abs => "I8x16Abs" | I_I8x16Neg => "I8x16Neg"
  | I_I8x16Popcnt => "I8x16Popcnt" | I_I8x16AllTrue => "I8x16AllTrue" | I_I8x16Bitmask => "I8x16Bitmask" | I_I8x16NarrowI16x8S => "I8x16NarrowI16x8S"
  | I_I8x16NarrowI16x8U => "I8x16NarrowI16x8U" | I_I8x16Shl => "I8x16Shl" | I_I8x16ShrS => "I8x16ShrS" | I_I8x16ShrU => "I8x16ShrU"
  | I_I8x16Add => "I8x16Add" | I_I8x16AddSatS => "I8x16AddSatS" | I_I8x16AddSatU => "I8x16AddSatU" | I_I8x16Sub => "I8x16Sub"
  | I_I8x16SubSatS => "I8x16SubSatS" | I_I8x16SubSatU => "I8x16SubSatU" | I_I8x16MinS => "I8x16MinS" | I_I8x16MinU => "I8x16MinU"
  | I_I8x16MaxS => "I8x16MaxS" | I_I8x16MaxU => "I8x16MaxU" | I_I8x16AvgrU => "I8x16AvgrU"
  | I_I16x8ExtaddPairwiseI8x16S => "I16x8ExtaddPairwiseI8x16S" | I_I16x8ExtaddPairwiseI8x16U => "I16x8ExtaddPairwiseI8x16U" | I_I16x8Abs => "I16x8Abs"
  | I_I16x8Neg => "I16x8Neg" | I_I16x8Q15MulrSatS => "I16x8Q15MulrSatS" | I_I16x8AllTrue => "I16x8AllTrue" | I_I16x8Bitmask => "I16x8Bitmask"
  | I_I16x8NarrowI32x4S => "I16x8NarrowI32x4S" | I_I16x8NarrowI32x4U => "I16x8NarrowI32x4U" | I_I16x8ExtendLowI8x16S => "I16x8ExtendLowI8x16S"
  | I_I16x8ExtendHighI8x16S => "I16x8ExtendHighI8x16S" | I_I16x8ExtendLowI8x16U => "I16x8ExtendLowI8x16U"
  | I_I16x8ExtendHighI8x16U => "I16x8ExtendHighI8x16U" | I_I16x8Shl => "I16x8Shl" | I_I16x8ShrS => "I16x8ShrS" | I_I16x8ShrU => "I16x8ShrU"
  | I_I16x8Add => "I16x8Add" | I_I16x8AddSatS => "I16x8AddSatS" | I_I16x8AddSatU => "I16x8AddSatU" | I_I16x8Sub => "I16x8Sub"
  | I_I16x8SubSatS => "I16x8SubSatS" | I_I16x8SubSatU => "I16x8SubSatU" | I_I16x8Mul => "I16x8Mul" | I_I16x8MinS => "I16x8MinS"
  | I_I16x8MinU => "I16x8MinU" | I_I16x8MaxS => "I16x8MaxS" | I_I16x8MaxU => "I16x8MaxU" | I_I16x8AvgrU => "I16x8AvgrU"
  | I_I16x8ExtmulLowI8x16S => "I16x8ExtmulLowI8x16S" | I_I16x8ExtmulHighI8x16S => "I16x8ExtmulHighI8x16S"
  | I_I16x8ExtmulLowI8x16U => "I16x8ExtmulLowI8x16U" | I_I16x8ExtmulHighI8x16U => "I16x8ExtmulHighI8x16U"
  | I_I16x8RelaxedQ15MulrS => "I16x8RelaxedQ15MulrS" | I_I16x8RelaxedDotSI8x16 => "I16x8RelaxedDotSI8x16"
  | I_I32x4RelaxedDotAddSI16x8 => "I32x4RelaxedDotAddSI16x8" | I_I32x4ExtaddPairwiseI16x8S => "I32x4ExtaddPairwiseI16x8S"
  | I_I32x4ExtaddPairwiseI16x8U => "I32x4ExtaddPairwiseI16x8U" | I_I32x4Abs => "I32x4Abs" | I_I32x4Neg => "I32x4Neg"
  | I_I32x4AllTrue => "I32x4AllTrue" | I_I32x4Bitmask => "I32x4Bitmask" | I_I32x4ExtendLowI16x8S => "I32x4ExtendLowI16x8S"
  | I_I32x4ExtendHighI16x8S => "I32x4ExtendHighI16x8S" | I_I32x4ExtendLowI16x8U => "I32x4ExtendLowI16x8U"
  | I_I32x4ExtendHighI16x8U => "I32x4ExtendHighI16x8U" | I_I32x4Shl => "I32x4Shl" | I_I32x4ShrS => "I32x4ShrS" | I_I32x4ShrU => "I32x4ShrU"
  | I_I32x4Add => "I32x4Add" | I_I32x4Sub => "I32x4Sub" | I_I32x4Mul => "I32x4Mul" | I_I32x4MinS => "I32x4MinS" | I_I32x4MinU => "I32x4MinU"
  | I_I32x4MaxS => "I32x4MaxS" | I_I32x4MaxU => "I32x4MaxU" | I_I32x4DotI16x8S => "I32x4DotI16x8S" | I_I32x4ExtmulLowI16x8S => "I32x4ExtmulLowI16x8S"
  | I_I32x4ExtmulHighI16x8S => "I32x4ExtmulHighI16x8S" | I_I32x4ExtmulLowI16x8U => "I32x4ExtmulLowI16x8U"
  | I_I32x4ExtmulHighI16x8U => "I32x4ExtmulHighI16x8U" | I_I64x2Abs => "I64x2Abs" | I_I64x2Neg => "I64x2Neg" | I_I64x2AllTrue => "I64x2AllTrue"
  | I_I64x2Bitmask => "I64x2Bitmask" | I_I64x2ExtendLowI32x4S => "I64x2ExtendLowI32x4S" | I_I64x2ExtendHighI32x4S => "I64x2ExtendHighI32x4S"
  | I_I64x2ExtendLowI32x4U => "I64x2ExtendLowI32x4U" | I_I64x2ExtendHighI32x4U => "I64x2ExtendHighI32x4U" | I_I64x2Shl => "I64x2Shl"
  | I_I64x2ShrS => "I64x2ShrS" | I_I64x2ShrU => "I64x2ShrU" | I_I64x2Add => "I64x2Add" | I_I64x2Sub => "I64x2Sub" | I_I64x2Mul => "I64x2Mul"
  | I_I64x2ExtmulLowI32x4S => "I64x2ExtmulLowI32x4S" | I_I64x2ExtmulHighI32x4S => "I64x2ExtmulHighI32x4S"
  | I_I64x2ExtmulLowI32x4U => "I64x2ExtmulLowI32x4U" | I_I64x2ExtmulHighI32x4U => "I64x2ExtmulHighI32x4U" | I_F32x4Ceil => "F32x4Ceil"
  | I_F32x4Floor => "F32x4Floor" | I_F32x4Trunc => "F32x4Trunc" | I_F32x4Nearest => "F32x4Nearest" | I_F32x4Abs => "F32x4Abs"
  | I_F32x4Neg => "F32x4Neg" | I_F32x4Sqrt => "F32x4Sqrt" | I_F32x4Add => "F32x4Add" | I_F32x4Sub => "F32x4Sub" | I_F32x4Mul => "F32x4Mul"
  | I_F32x4Div => "F32x4Div" | I_F32x4Min => "F32x4Min" | I_F32x4Max => "F32x4Max" | I_F32x4PMin => "F32x4PMin" | I_F32x4PMax => "F32x4PMax"
  | I_F32x4RelaxedMin => "F32x4RelaxedMin" | I_F32x4RelaxedMax => "F32x4RelaxedMax" | I_F32x4RelaxedMAdd => "F32x4RelaxedMAdd"
  | I_F32x4RelaxedNMAdd => "F32x4RelaxedNMAdd" | I_F64x2Ceil => "F64x2Ceil" | I_F64x2Floor => "F64x2Floor" | I_F64x2Trunc => "F64x2Trunc"
  | I_F64x2Nearest => "F64x2Nearest" | I_F64x2Abs => "F64x2Abs" | I_F64x2Neg => "F64x2Neg" | I_F64x2Sqrt => "F64x2Sqrt" | I_F64x2Add => "F64x2Add"
  | I_F64x2Sub => "F64x2Sub" | I_F64x2Mul => "F64x2Mul" | I_F64x2Div => "F64x2Div" | I_F64x2Min => "F64x2Min" | I_F64x2Max => "F64x2Max"
  | I_F64x2PMin => "F64x2PMin" | I_F64x2PMax => "F64x2PMax" | I_F64x2RelaxedMin => "F64x2RelaxedMin" | I_F64x2RelaxedMax => "F64x2RelaxedMax"
  | I_F64x2RelaxedMAdd => "F64x2RelaxedMAdd" | I_F64x2RelaxedNMAdd => "F64x2RelaxedNMAdd" | I_I32x4TruncSatF32x4S => "I32x4TruncSatF32x4S"
  | I_I32x4TruncSatF32x4U => "I32x4TruncSatF32x4U" | I_F32x4ConvertI32x4S => "F32x4ConvertI32x4S" | I_F32x4ConvertI32x4U => "F32x4ConvertI32x4U"
  | I_I32x4TruncSatF64x2SZero => "I32x4TruncSatF64x2SZero" | I_I32x4TruncSatF64x2UZero => "I32x4TruncSatF64x2UZero"
  | I_I32x4RelaxedTruncF32x4S => "I32x4RelaxedTruncF32x4S" | I_I32x4RelaxedTruncF32x4U => "I32x4RelaxedTruncF32x4U"
  | I_I32x4RelaxedTruncF64x2SZero => "I32x4RelaxedTruncF64x2SZero" | I_I32x4RelaxedTruncF64x2UZero => "I32x4RelaxedTruncF64x2UZero"
  | I_F64x2ConvertLowI32x4S => "F64x2ConvertLowI32x4S" | I_F64x2ConvertLowI32x4U => "F64x2ConvertLowI32x4U"
  | I_F32x4DemoteF64x2Zero => "F32x4DemoteF64x2Zero" | I_F64x2PromoteLowF32x4 => "F64x2PromoteLowF32x4"
  end.
(** the fields of a variant, in order, except in block, loop, if and try_table;
    [O_idx]: an index newtype *)
(** src/core/instruction.rs, the types of the fields of Instruction *)
Inductive operand :=
| O_idx (newtype : string) (x : N) | O_u32 (n : N) | O_int (z : Z) | O_f32 (b : N) | O_f64 (b : N) | O_lane (b : byte)
| O_bytes (l : list byte) | O_lanes (l : list byte) | O_labels (l : list N) | O_types (t : option (list ValType))
| O_reftype (t : RefType) | O_heaptype (t : HeapType) | O_memarg (m : Memarg).
(** src/core/instruction.rs, the fields of Instruction *)
Definition operands (i : instr) : list operand :=
  match i with
  | I_Br x0 => [O_idx "LabelIdx" x0]
  | I_BrIf x0 => [O_idx "LabelIdx" x0]
  | I_BrTable x0 x1 => [O_labels x0; O_idx "LabelIdx" x1]
  | I_BrOnNull x0 => [O_idx "LabelIdx" x0]
  | I_BrOnNonNull x0 => [O_idx "LabelIdx" x0]
  | I_BrOnCast x0 x1 x2 => [O_idx "LabelIdx" x0; O_reftype x1; O_reftype x2]
  | I_BrOnCastFail x0 x1 x2 => [O_idx "LabelIdx" x0; O_reftype x1; O_reftype x2]
  | I_Call x0 => [O_idx "FuncIdx" x0]
  | I_CallRef x0 => [O_idx "TypeIdx" x0]
  | I_CallIndirect x0 x1 => [O_idx "TableIdx" x0; O_idx "TypeIdx" x1]
  | I_ReturnCall x0 => [O_idx "FuncIdx" x0]
  | I_ReturnCallRef x0 => [O_idx "TypeIdx" x0]
  | I_ReturnCallIndirect x0 x1 => [O_idx "TableIdx" x0; O_idx "TypeIdx" x1]
  | I_Throw x0 => [O_idx "TagIdx" x0]
  | I_RefFunc x0 => [O_idx "FuncIdx" x0]
  | I_RefNull x0 => [O_heaptype x0]
  | I_RefTest x0 => [O_reftype x0]
  | I_RefCast x0 => [O_reftype x0]
  | I_StructNew x0 => [O_idx "TypeIdx" x0]
  | I_StructNewDefault x0 => [O_idx "TypeIdx" x0]
  | I_StructGet x0 x1 => [O_idx "TypeIdx" x0; O_u32 x1]
  | I_StructGetS x0 x1 => [O_idx "TypeIdx" x0; O_u32 x1]
  | I_StructGetU x0 x1 => [O_idx "TypeIdx" x0; O_u32 x1]
  | I_StructSet x0 x1 => [O_idx "TypeIdx" x0; O_u32 x1]
  | I_ArrayNew x0 => [O_idx "TypeIdx" x0]
  | I_ArrayNewDefault x0 => [O_idx "TypeIdx" x0]
  | I_ArrayNewFixed x0 x1 => [O_idx "TypeIdx" x0; O_u32 x1]
  | I_ArrayNewData x0 x1 => [O_idx "TypeIdx" x0; O_idx "DataIdx" x1]
  | I_ArrayNewElem x0 x1 => [O_idx "TypeIdx" x0; O_idx "ElemIdx" x1]
  | I_ArrayGet x0 => [O_idx "TypeIdx" x0]
  | I_ArrayGetS x0 => [O_idx "TypeIdx" x0]
  | I_ArrayGetU x0 => [O_idx "TypeIdx" x0]
  | I_ArraySet x0 => [O_idx "TypeIdx" x0]
  | I_ArrayFill x0 => [O_idx "TypeIdx" x0]
  | I_ArrayCopy x0 x1 => [O_idx "TypeIdx" x0; O_idx "TypeIdx" x1]
  | I_ArrayInitData x0 x1 => [O_idx "TypeIdx" x0; O_idx "DataIdx" x1]
  | I_ArrayInitElem x0 x1 => [O_idx "TypeIdx" x0; O_idx "ElemIdx" x1]
  | I_Select x0 => [O_types x0]
  | I_LocalGet x0 => [O_idx "LocalIdx" x0]
  | I_LocalSet x0 => [O_idx "LocalIdx" x0]
  | I_LocalTee x0 => [O_idx "LocalIdx" x0]
  | I_GlobalGet x0 => [O_idx "GlobalIdx" x0]
  | I_GlobalSet x0 => [O_idx "GlobalIdx" x0]
  | I_TableGet x0 => [O_idx "TableIdx" x0]
  | I_TableSet x0 => [O_idx "TableIdx" x0]
  | I_TableInit x0 x1 => [O_idx "TableIdx" x0; O_idx "ElemIdx" x1]
  | I_ElemDrop x0 => [O_idx "ElemIdx" x0]
  | I_TableCopy x0 x1 => [O_idx "TableIdx" x0; O_idx "TableIdx" x1]
  | I_TableGrow x0 => [O_idx "TableIdx" x0]
  | I_TableSize x0 => [O_idx "TableIdx" x0]
  | I_TableFill x0 => [O_idx "TableIdx" x0]
  | I_I32Load x0 => [O_memarg x0]
  | I_I64Load x0 => [O_memarg x0]
  | I_F32Load x0 => [O_memarg x0]
  | I_F64Load x0 => [O_memarg x0]
  | I_I32Load8s x0 => [O_memarg x0]
  | I_I32Load8u x0 => [O_memarg x0]
  | I_I32Load16s x0 => [O_memarg x0]
  | I_I32Load16u x0 => [O_memarg x0]
  | I_I64Load8s x0 => [O_memarg x0]
  | I_I64Load8u x0 => [O_memarg x0]
  | I_I64Load16s x0 => [O_memarg x0]
  | I_I64Load16u x0 => [O_memarg x0]
  | I_I64Load32s x0 => [O_memarg x0]
  | I_I64Load32u x0 => [O_memarg x0]
  | I_I32Store x0 => [O_memarg x0]
  | I_I64Store x0 => [O_memarg x0]
  | I_F32Store x0 => [O_memarg x0]
  | I_F64Store x0 => [O_memarg x0]
  | I_I32Store8 x0 => [O_memarg x0]
  | I_I32Store16 x0 => [O_memarg x0]
  | I_I64Store8 x0 => [O_memarg x0]
  | I_I64Store16 x0 => [O_memarg x0]
  | I_I64Store32 x0 => [O_memarg x0]
  | I_MemorySize x0 => [O_idx "MemIdx" x0]
  | I_MemoryGrow x0 => [O_idx "MemIdx" x0]
  | I_MemoryInit x0 x1 => [O_idx "MemIdx" x0; O_idx "DataIdx" x1]
  | I_DataDrop x0 => [O_idx "DataIdx" x0]
  | I_MemoryCopy x0 x1 => [O_idx "MemIdx" x0; O_idx "MemIdx" x1]
  | I_MemoryFill x0 => [O_idx "MemIdx" x0]
  | I_I32Const x0 => [O_int x0]
  | I_I64Const x0 => [O_int x0]
  | I_F32Const x0 => [O_f32 x0]
  | I_F64Const x0 => [O_f64 x0]
  | I_V128Load x0 => [O_memarg x0]
  | I_V128Load8x8S x0 => [O_memarg x0]
  | I_V128Load8x8U x0 => [O_memarg x0]
  | I_V128Load16x4S x0 => [O_memarg x0]
  | I_V128Load16x4U x0 => [O_memarg x0]
  | I_V128Load32x2S x0 => [O_memarg x0]
  | I_V128Load32x2U x0 => [O_memarg x0]
  | I_V128Load8Splat x0 => [O_memarg x0]
  | I_V128Load16Splat x0 => [O_memarg x0]
  | I_V128Load32Splat x0 => [O_memarg x0]
  | I_V128Load64Splat x0 => [O_memarg x0]
  | I_V128Load32Zero x0 => [O_memarg x0]
  | I_V128Load64Zero x0 => [O_memarg x0]
  | I_V128Store x0 => [O_memarg x0]
  | I_V128Load8Lane x0 x1 => [O_memarg x0; O_lane x1]
  | I_V128Load16Lane x0 x1 => [O_memarg x0; O_lane x1]
  | I_V128Load32Lane x0 x1 => [O_memarg x0; O_lane x1]
  | I_V128Load64Lane x0 x1 => [O_memarg x0; O_lane x1]
  | I_V128Store8Lane x0 x1 => [O_memarg x0; O_lane x1]
  | I_V128Store16Lane x0 x1 => [O_memarg x0; O_lane x1]
  | I_V128Store32Lane x0 x1 => [O_memarg x0; O_lane x1]
  | I_V128Store64Lane x0 x1 => [O_memarg x0; O_lane x1]
  | I_V128Const x0 => [O_bytes x0]
  | I_I8x16Shuffle x0 => [O_lanes x0]
  | I_I8x16ExtractLaneS x0 => [O_lane x0]
  | I_I8x16ExtractLaneU x0 => [O_lane x0]
  | I_I8x16ReplaceLane x0 => [O_lane x0]
  | I_I16x8ExtractLaneS x0 => [O_lane x0]
  | I_I16x8ExtractLaneU x0 => [O_lane x0]
  | I_I16x8ReplaceLane x0 => [O_lane x0]
  | I_I32x4ExtractLane x0 => [O_lane x0]
  | I_I32x4ReplaceLane x0 => [O_lane x0]
  | I_I64x2ExtractLane x0 => [O_lane x0]
  | I_I64x2ReplaceLane x0 => [O_lane x0]
  | I_F32x4ExtractLane x0 => [O_lane x0]
  | I_F32x4ReplaceLane x0 => [O_lane x0]
  | I_F64x2ExtractLane x0 => [O_lane x0]
  | I_F64x2ReplaceLane x0 => [O_lane x0]
  | _ => []
  end.

Section Debug.
  Context {T : Texts}.
  (** derive(Debug), src/core/instruction.rs *)
  Definition d_operand (o : operand) : dtree :=
    match o with
    | O_idx newtype x => d_idx newtype x
    | O_u32 n => d_N n
    | O_int z => d_Z z
    | O_f32 b => DAtom (debug_f32 b)
    | O_f64 b => DAtom (debug_f64 b)
    | O_lane b => d_lane b
    | O_bytes l => d_bytes l
    | O_lanes l => d_list d_lane l
    | O_labels l => d_list (d_idx "LabelIdx") l
    | O_types t => d_option (d_list d_valtype) t
    | O_reftype t => d_reftype t
    | O_heaptype t => d_heaptype t
    | O_memarg m => d_memarg m
    end.
  (** a unit variant prints its name only *)
  Definition d_variant (name : string) (fs : list dtree) : dtree :=
    match fs with [] => DAtom name | _ => DTuple name fs end.
  (** src/core/instruction.rs:7 *)
  Fixpoint d_instr (i : instr) : dtree :=
    match i with
    | I_Block t l => DTuple "Block" [d_blocktype t; DList (map d_instr l)]
    | I_Loop t l => DTuple "Loop" [d_blocktype t; DList (map d_instr l)]
    | I_If t l o =>
        DTuple "If" [d_blocktype t; DList (map d_instr l);
                     match o with None => DAtom "None" | Some l' => DTuple "Some" [DList (map d_instr l')] end]
    | I_TryTable t c l => DTuple "TryTable" [d_blocktype t; d_list d_catch c; DList (map d_instr l)]
    | _ => d_variant (instr_name i) (map d_operand (operands i))
    end.
  Definition d_expr : Expr -> dtree := d_list d_instr.

  Definition d_string (s : rstring) : dtree := DAtom (debug_str s).
  (** src/core/mod.rs:34, 54, 48 *)
  Definition d_import (i : Import) : dtree :=
    DStruct "Import" [("module_name", d_string (im_module i)); ("item_name", d_string (im_item i)); ("extern_type", d_externtype (im_type i))].
  Definition d_externidx (x : ExternIdx) : dtree :=
    match x with
    | EI_Func x => DTuple "Func" [d_idx "FuncIdx" x]
    | EI_Global x => DTuple "Global" [d_idx "GlobalIdx" x]
    | EI_Table x => DTuple "Table" [d_idx "TableIdx" x]
    | EI_Mem x => DTuple "Mem" [d_idx "MemIdx" x]
    | EI_Tag x => DTuple "Tag" [d_idx "TagIdx" x]
    end.
  Definition d_export (e : Export) : dtree :=
    DStruct "Export" [("name", d_string (ex_name e)); ("externidx", d_externidx (ex_idx e))].
  (** src/core/mod.rs:70, 96; a raw identifier prints without [r#] *)
  Definition d_func (f : Func) : dtree :=
    DStruct "Func" [("type", d_idx "TypeIdx" (f_type f)); ("locals", d_list d_valtype (f_locals f)); ("body", d_expr (f_body f))].
  Definition d_global (g : Global) : dtree := DStruct "Global" [("type", d_globaltype (g_type g)); ("init", d_expr (g_init g))].
  (** src/core/mod.rs:119, 113, 147, 140, 163 *)
  Definition d_datamode (m : DataMode) : dtree :=
    match m with
    | DM_Passive => DAtom "Passive"
    | DM_Active x o => DStruct "Active" [("memory", d_idx "MemIdx" x); ("offset", d_expr o)]
    end.
  Definition d_data (d : Data) : dtree := DStruct "Data" [("init", d_bytes (d_init d)); ("mode", d_datamode (d_mode d))].
  Definition d_elemmode (m : ElemMode) : dtree :=
    match m with
    | EM_Passive => DAtom "Passive"
    | EM_Active x o => DStruct "Active" [("table", d_idx "TableIdx" x); ("offset", d_expr o)]
    | EM_Declare => DAtom "Declare"
    end.
  Definition d_elem (e : Elem) : dtree :=
    DStruct "Elem" [("type", d_reftype (e_type e)); ("init", d_list d_expr (e_init e)); ("mode", d_elemmode (e_mode e))].
  Definition d_table (t : Table) : dtree := DTuple "Table" [d_tabletype (t_type t); d_expr (t_init t)].
  (** src/core/custom_section.rs:13 *)
  Definition d_custom (c : CustomSection) : dtree :=
    DStruct "CustomSection" [("name", d_string (cs_name c)); ("contents", d_bytes (cs_contents c))].
  (** src/core/module.rs:172, 166, 15 *)
  Definition d_kind (k : SectionKind) : dtree := DAtom (debug_section k).
  Definition d_header (h : SectionHeader) : dtree := DStruct "SectionHeader" [("kind", d_kind (sh_kind h)); ("size", d_N (sh_size h))].
  Definition d_module (m : Module_) : dtree :=
    DStruct "Module"
      [("version", d_bytes (version m));
       ("parsed_section_kinds", d_list d_kind (parsed_section_kinds m));
       ("section_headers", d_list d_header (section_headers m));
       ("custom_sections", d_list d_custom (custom_sections m));
       ("types", d_list d_rectype (types m));
       ("funcs", d_list d_func (funcs m));
       ("tables", d_list d_table (tables m));
       ("mems", d_list d_memtype (mems m));
       ("globals", d_list d_global (globals m));
       ("elems", d_list d_elem (elems m));
       ("data_count", d_option d_N (data_count m));
       ("datas", d_list d_data (datas m));
       ("start", d_option (d_idx "FuncIdx") (start m));
       ("imports", d_list d_import (imports m));
       ("exports", d_list d_export (exports m));
       ("tags", d_list d_tagtype (tags m))].
  (** [format!("{module:#?}")] *)
  (** wadec-cli/src/main.rs:26 *)
  Definition debug_module (m : Module_) : string := pretty (d_module m).
  (** [format!("{module:?}")] *)
  (** core::fmt, without # *)
  Definition compact_module (m : Module_) : string := compact (d_module m).
End Debug.
