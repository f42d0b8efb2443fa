(** Specification: the shortest encoding of a module, and which modules have an
    encoding at all.  [fit_...] are the ranges of the abstract syntax, [enc_...]
    the shortest encodings.  Nothing here refers to the model of the decoder, nor
    to the grammar of Spec/Types.v, Spec/Instr.v and Spec/Module.v except for the
    names of sections. *)
From Verif Require Import Model.Ast Spec.Lang Spec.Types Spec.Instr Spec.Module.
From Coq Require Import Bool Lia.

(** ** Integers, lists *)
(** LEB128 without padding: seven bits at a time, low bits first ([fuel] bounds the length) *)
Fixpoint leb_u (fuel : nat) (n : N) : list byte :=
  match fuel with
  | S f => if (n <? 128)%N then [byte_of n] else byte_of (128 + n mod 128) :: leb_u f (n / 128)
  | O => [byte_of n]
  end.
Fixpoint leb_s (fuel : nat) (z : Z) : list byte :=
  match fuel with
  | S f => if ((-64 <=? z) && (z <? 64))%Z then [byte_of (Z.to_N (z mod 128))] else byte_of (128 + Z.to_N (z mod 128)) :: leb_s f (z / 128)
  | O => [byte_of (Z.to_N (z mod 128))]
  end.
Definition enc_u : N -> list byte := leb_u 9.
Definition enc_s : Z -> list byte := leb_s 9.
(** [k] bytes, little-endian *)
Fixpoint enc_le (k : nat) (n : N) : list byte :=
  match k with O => [] | S k => byte_of (n mod 256) :: enc_le k (n / 256) end.
Definition enc_byte (b : byte) : list byte := [b].
Definition enc_list {A} (enc : A -> list byte) (l : list A) : list byte := enc_u (N.of_nat (length l)) ++ flat_map enc l.
(** the shortest of several encodings *)
Definition shorter (a b : list byte) : list byte := if length a <=? length b then a else b.

Definition fit_u32 (n : N) : Prop := (n < 2 ^ 32)%N.
Definition fit_u64 (n : N) : Prop := (n < 2 ^ 64)%N.
Definition fit_i32 (z : Z) : Prop := (- 2 ^ 31 <= z < 2 ^ 31)%Z.
Definition fit_i64 (z : Z) : Prop := (- 2 ^ 63 <= z < 2 ^ 63)%Z.
Definition fit_bytes (k : nat) (l : list byte) : Prop := length l = k.
Definition fit_list {A} (fit : A -> Prop) (l : list A) : Prop := (N.of_nat (length l) < 2 ^ 32)%N /\ Forall fit l.
Definition fit_name (s : list byte) : Prop := fit_list (fun _ => True) s /\ utf8 s.
Definition enc_name (s : list byte) : list byte := enc_list enc_byte s.

(** ** Types *)
Definition enc_numtype (t : NumType) : list byte := match t with Int32 => [x7f] | Int64 => [x7e] | Float32 => [x7d] | Float64 => [x7c] end.
Definition enc_absheaptype (t : AbsHeapType) : list byte :=
  match t with
  | AH_Exn => [x69] | AH_Array => [x6a] | AH_Struct => [x6b] | AH_I31 => [x6c] | AH_Eq => [x6d] | AH_Any => [x6e]
  | AH_Extern => [x6f] | AH_Func => [x70] | AH_None => [x71] | AH_NoExtern => [x72] | AH_NoFunc => [x73] | AH_NoExn => [x74]
  end.
Definition enc_heaptype (h : HeapType) : list byte := match h with Ht t => enc_absheaptype t | HtIdx x => enc_s (Z.of_N x) end.
Definition fit_heaptype (h : HeapType) : Prop := match h with Ht _ => True | HtIdx x => fit_u32 x end.
Definition enc_reftype (t : RefType) : list byte :=
  match t with
  | mkRefType true (Ht a) => enc_absheaptype a
  | mkRefType true h => x63 :: enc_heaptype h
  | mkRefType false h => x64 :: enc_heaptype h
  end.
Definition fit_reftype (t : RefType) : Prop := fit_heaptype (ht t).
Definition enc_valtype (t : ValType) : list byte := match t with VT_Num t => enc_numtype t | VT_Vec V128 => [x7b] | VT_Ref t => enc_reftype t end.
Definition fit_valtype (t : ValType) : Prop := match t with VT_Ref t => fit_reftype t | _ => True end.
Definition enc_mut (m : Mut) : list byte := match m with Const => [x00] | Var => [x01] end.
Definition enc_fieldtype (f : FieldType) : list byte :=
  match ft_type f with ST_Val t => enc_valtype t | ST_Pack PT_I8 => [x78] | ST_Pack PT_I16 => [x77] end ++ enc_mut (ft_mut f).
Definition fit_fieldtype (f : FieldType) : Prop := match ft_type f with ST_Val t => fit_valtype t | ST_Pack _ => True end.
Definition enc_comptype (t : CompType) : list byte :=
  match t with
  | CT_Array f => x5e :: enc_fieldtype f
  | CT_Struct fs => x5f :: enc_list enc_fieldtype fs
  | CT_Func ps rs => x60 :: enc_list enc_valtype ps ++ enc_list enc_valtype rs
  end.
Definition fit_comptype (t : CompType) : Prop :=
  match t with
  | CT_Array f => fit_fieldtype f
  | CT_Struct fs => fit_list fit_fieldtype fs
  | CT_Func ps rs => fit_list fit_valtype ps /\ fit_list fit_valtype rs
  end.
Definition enc_subtype (t : SubType) : list byte :=
  match t with
  | mkSubType true [] ct => enc_comptype ct
  | mkSubType true xs ct => x4f :: enc_list enc_u xs ++ enc_comptype ct
  | mkSubType false xs ct => x50 :: enc_list enc_u xs ++ enc_comptype ct
  end.
Definition fit_subtype (t : SubType) : Prop := fit_list fit_u32 (supertypes t) /\ fit_comptype (comptype t).
Definition enc_rectype (t : RecType) : list byte := match t with [st] => enc_subtype st | sts => x4e :: enc_list enc_subtype sts end.
Definition fit_rectype (t : RecType) : Prop := fit_list fit_subtype t.
Definition enc_limits (l : Limits) : list byte :=
  match l with
  | mkLimits AT_I32 n None => x00 :: enc_u n
  | mkLimits AT_I32 n (Some m) => x01 :: enc_u n ++ enc_u m
  | mkLimits AT_I64 n None => x04 :: enc_u n
  | mkLimits AT_I64 n (Some m) => x05 :: enc_u n ++ enc_u m
  end.
Definition fit_limits (l : Limits) : Prop := fit_u64 (lim_min l) /\ match lim_max l with Some m => fit_u64 m | None => True end.
Definition enc_tagtype (t : TagType) : list byte := x00 :: enc_u (tag_type t).
Definition fit_tagtype (t : TagType) : Prop := fit_u32 (tag_type t).
Definition enc_globaltype (t : GlobalType) : list byte := enc_valtype (gt_type t) ++ enc_mut (gt_mut t).
Definition fit_globaltype (t : GlobalType) : Prop := fit_valtype (gt_type t).
Definition enc_memtype (t : MemType) : list byte := enc_limits (mt_limits t).
Definition fit_memtype (t : MemType) : Prop := fit_limits (mt_limits t).
Definition enc_tabletype (t : TableType) : list byte := enc_reftype (tt_reftype t) ++ enc_limits (tt_limits t).
Definition fit_tabletype (t : TableType) : Prop := fit_reftype (tt_reftype t) /\ fit_limits (tt_limits t).
Definition enc_externtype (t : ExternType) : list byte :=
  match t with
  | ET_Func x => x00 :: enc_u x | ET_Table t => x01 :: enc_tabletype t | ET_Mem t => x02 :: enc_memtype t
  | ET_Global t => x03 :: enc_globaltype t | ET_Tag t => x04 :: enc_tagtype t
  end.
Definition fit_externtype (t : ExternType) : Prop :=
  match t with
  | ET_Func x => fit_u32 x | ET_Table t => fit_tabletype t | ET_Mem t => fit_memtype t
  | ET_Global t => fit_globaltype t | ET_Tag t => fit_tagtype t
  end.

(** ** Instructions *)
Definition enc_memarg (a : Memarg) : list byte :=
  if (ma_mem a =? 0)%N then enc_u (ma_align a) ++ enc_u (ma_offset a)
  else enc_u (64 + ma_align a) ++ enc_u (ma_mem a) ++ enc_u (ma_offset a).
(** the alignment is an exponent below 64, the offset has 64 bits *)
Definition fit_memarg (a : Memarg) : Prop := fit_u32 (ma_mem a) /\ (ma_align a < 64)%N /\ fit_u64 (ma_offset a).
Definition enc_blocktype (b : BlockType) : list byte := match b with BT_Empty => [x40] | BT_T t => enc_valtype t | BT_I x => enc_s (Z.of_N x) end.
Definition fit_blocktype (b : BlockType) : Prop := match b with BT_Empty => True | BT_T t => fit_valtype t | BT_I x => fit_u32 x end.
Definition enc_catch (c : Catch) : list byte :=
  match c with
  | C_Catch x l => x00 :: enc_u x ++ enc_u l | C_CatchRef x l => x01 :: enc_u x ++ enc_u l
  | C_CatchAll l => x02 :: enc_u l | C_CatchAllRef l => x03 :: enc_u l
  end.
Definition fit_catch (c : Catch) : Prop :=
  match c with C_Catch x l | C_CatchRef x l => fit_u32 x /\ fit_u32 l | C_CatchAll l | C_CatchAllRef l => fit_u32 l end.
Definition enc_castop (n1 n2 : bool) : list byte :=
  match n1, n2 with false, false => [x00] | true, false => [x01] | false, true => [x02] | true, true => [x03] end.
Definition fb (n : N) : list byte := xfb :: enc_u n.
Definition fc (n : N) : list byte := xfc :: enc_u n.
Definition fd (n : N) : list byte := xfd :: enc_u n.
Fixpoint enc_instr (i : instr) : list byte :=
  match i with
  | I_Block bt is => x02 :: enc_blocktype bt ++ flat_map enc_instr is ++ [x0b]
  | I_Loop bt is => x03 :: enc_blocktype bt ++ flat_map enc_instr is ++ [x0b]
  | I_If bt is None => x04 :: enc_blocktype bt ++ flat_map enc_instr is ++ [x0b]
  | I_If bt is1 (Some is2) => x04 :: enc_blocktype bt ++ flat_map enc_instr is1 ++ [x05] ++ flat_map enc_instr is2 ++ [x0b]
  | I_TryTable bt cs is => x1f :: enc_blocktype bt ++ enc_list enc_catch cs ++ flat_map enc_instr is ++ [x0b]
  | I_Select None => [x1b]
  | I_Select (Some ts) => [x1c] ++ enc_list enc_valtype ts
  | I_RefTest t => fb (if nullable t then 21 else 20) ++ enc_heaptype (ht t)
  | I_RefCast t => fb (if nullable t then 23 else 22) ++ enc_heaptype (ht t)
  | I_BrOnCast l t1 t2 => fb 24 ++ enc_castop (nullable t1) (nullable t2) ++ enc_u l ++ enc_heaptype (ht t1) ++ enc_heaptype (ht t2)
  | I_BrOnCastFail l t1 t2 => fb 25 ++ enc_castop (nullable t1) (nullable t2) ++ enc_u l ++ enc_heaptype (ht t1) ++ enc_heaptype (ht t2)
  | I_Unreachable => [x00] | I_Nop => [x01] | I_Throw a => [x08] ++ enc_u a | I_ThrowRef => [x0a]
  | I_Br a => [x0c] ++ enc_u a | I_BrIf a => [x0d] ++ enc_u a
  | I_BrTable a b => [x0e] ++ enc_list enc_u a ++ enc_u b | I_Return => [x0f] | I_Call a => [x10] ++ enc_u a
  | I_CallIndirect x y => [x11] ++ enc_u y ++ enc_u x | I_ReturnCall a => [x12] ++ enc_u a
  | I_ReturnCallIndirect x y => [x13] ++ enc_u y ++ enc_u x | I_CallRef a => [x14] ++ enc_u a
  | I_ReturnCallRef a => [x15] ++ enc_u a | I_Drop => [x1a] | I_LocalGet a => [x20] ++ enc_u a
  | I_LocalSet a => [x21] ++ enc_u a | I_LocalTee a => [x22] ++ enc_u a | I_GlobalGet a => [x23] ++ enc_u a
  | I_GlobalSet a => [x24] ++ enc_u a | I_TableGet a => [x25] ++ enc_u a | I_TableSet a => [x26] ++ enc_u a
  | I_I32Load a => [x28] ++ enc_memarg a | I_I64Load a => [x29] ++ enc_memarg a
  | I_F32Load a => [x2a] ++ enc_memarg a | I_F64Load a => [x2b] ++ enc_memarg a
  | I_I32Load8s a => [x2c] ++ enc_memarg a | I_I32Load8u a => [x2d] ++ enc_memarg a
  | I_I32Load16s a => [x2e] ++ enc_memarg a | I_I32Load16u a => [x2f] ++ enc_memarg a
  | I_I64Load8s a => [x30] ++ enc_memarg a | I_I64Load8u a => [x31] ++ enc_memarg a
  | I_I64Load16s a => [x32] ++ enc_memarg a | I_I64Load16u a => [x33] ++ enc_memarg a
  | I_I64Load32s a => [x34] ++ enc_memarg a | I_I64Load32u a => [x35] ++ enc_memarg a
  | I_I32Store a => [x36] ++ enc_memarg a | I_I64Store a => [x37] ++ enc_memarg a
  | I_F32Store a => [x38] ++ enc_memarg a | I_F64Store a => [x39] ++ enc_memarg a
  | I_I32Store8 a => [x3a] ++ enc_memarg a | I_I32Store16 a => [x3b] ++ enc_memarg a
  | I_I64Store8 a => [x3c] ++ enc_memarg a | I_I64Store16 a => [x3d] ++ enc_memarg a
  | I_I64Store32 a => [x3e] ++ enc_memarg a | I_MemorySize a => [x3f] ++ enc_u a
  | I_MemoryGrow a => [x40] ++ enc_u a | I_I32Const a => [x41] ++ enc_s a | I_I64Const a => [x42] ++ enc_s a
  | I_F32Const a => [x43] ++ enc_le 4 a | I_F64Const a => [x44] ++ enc_le 8 a | I_I32Eqz => [x45]
  | I_I32Eq => [x46] | I_I32Ne => [x47] | I_I32LtS => [x48] | I_I32LtU => [x49] | I_I32GtS => [x4a]
  | I_I32GtU => [x4b] | I_I32LeS => [x4c] | I_I32LeU => [x4d] | I_I32GeS => [x4e] | I_I32GeU => [x4f]
  | I_I64Eqz => [x50] | I_I64Eq => [x51] | I_I64Ne => [x52] | I_I64LtS => [x53] | I_I64LtU => [x54]
  | I_I64GtS => [x55] | I_I64GtU => [x56] | I_I64LeS => [x57] | I_I64LeU => [x58] | I_I64GeS => [x59]
  | I_I64GeU => [x5a] | I_F32Eq => [x5b] | I_F32Ne => [x5c] | I_F32Lt => [x5d] | I_F32Gt => [x5e]
  | I_F32Le => [x5f] | I_F32Ge => [x60] | I_F64Eq => [x61] | I_F64Ne => [x62] | I_F64Lt => [x63]
  | I_F64Gt => [x64] | I_F64Le => [x65] | I_F64Ge => [x66] | I_I32Clz => [x67] | I_I32Ctz => [x68]
  | I_I32Popcnt => [x69] | I_I32Add => [x6a] | I_I32Sub => [x6b] | I_I32Mul => [x6c] | I_I32DivS => [x6d]
  | I_I32DivU => [x6e] | I_I32RemS => [x6f] | I_I32RemU => [x70] | I_I32And => [x71] | I_I32Or => [x72]
  | I_I32Xor => [x73] | I_I32Shl => [x74] | I_I32ShrS => [x75] | I_I32ShrU => [x76] | I_I32Rotl => [x77]
  | I_I32Rotr => [x78] | I_I64Clz => [x79] | I_I64Ctz => [x7a] | I_I64Popcnt => [x7b] | I_I64Add => [x7c]
  | I_I64Sub => [x7d] | I_I64Mul => [x7e] | I_I64DivS => [x7f] | I_I64DivU => [x80] | I_I64RemS => [x81]
  | I_I64RemU => [x82] | I_I64And => [x83] | I_I64Or => [x84] | I_I64Xor => [x85] | I_I64Shl => [x86]
  | I_I64ShrS => [x87] | I_I64ShrU => [x88] | I_I64Rotl => [x89] | I_I64Rotr => [x8a] | I_F32Abs => [x8b]
  | I_F32Neg => [x8c] | I_F32Ceil => [x8d] | I_F32Floor => [x8e] | I_F32Trunc => [x8f] | I_F32Nearest => [x90]
  | I_F32Sqrt => [x91] | I_F32Add => [x92] | I_F32Sub => [x93] | I_F32Mul => [x94] | I_F32Div => [x95]
  | I_F32Min => [x96] | I_F32Max => [x97] | I_F32Copysign => [x98] | I_F64Abs => [x99] | I_F64Neg => [x9a]
  | I_F64Ceil => [x9b] | I_F64Floor => [x9c] | I_F64Trunc => [x9d] | I_F64Nearest => [x9e] | I_F64Sqrt => [x9f]
  | I_F64Add => [xa0] | I_F64Sub => [xa1] | I_F64Mul => [xa2] | I_F64Div => [xa3] | I_F64Min => [xa4]
  | I_F64Max => [xa5] | I_F64Copysign => [xa6] | I_I32WrapI64 => [xa7] | I_I32TruncF32S => [xa8]
  | I_I32TruncF32U => [xa9] | I_I32TruncF64S => [xaa] | I_I32TruncF64U => [xab] | I_I64ExtendI32S => [xac]
  | I_I64ExtendI32U => [xad] | I_I64TruncF32S => [xae] | I_I64TruncF32U => [xaf] | I_I64TruncF64S => [xb0]
  | I_I64TruncF64U => [xb1] | I_F32ConvertI32S => [xb2] | I_F32ConvertI32U => [xb3] | I_F32ConvertI64S => [xb4]
  | I_F32ConvertI64U => [xb5] | I_F32DemoteF64 => [xb6] | I_F64ConvertI32S => [xb7] | I_F64ConvertI32U => [xb8]
  | I_F64ConvertI64S => [xb9] | I_F64ConvertI64U => [xba] | I_F64PromoteF32 => [xbb]
  | I_I32ReinterpretF32 => [xbc] | I_I64ReinterpretF64 => [xbd] | I_F32ReinterpretI32 => [xbe]
  | I_F64ReinterpretI64 => [xbf] | I_I32Extend8S => [xc0] | I_I32Extend16S => [xc1] | I_I64Extend8S => [xc2]
  | I_I64Extend16S => [xc3] | I_I64Extend32S => [xc4] | I_RefNull a => [xd0] ++ enc_heaptype a
  | I_RefIsNull => [xd1] | I_RefFunc a => [xd2] ++ enc_u a | I_RefEq => [xd3] | I_RefAsNonNull => [xd4]
  | I_BrOnNull a => [xd5] ++ enc_u a | I_BrOnNonNull a => [xd6] ++ enc_u a | I_StructNew a => fb 0 ++ enc_u a
  | I_StructNewDefault a => fb 1 ++ enc_u a | I_StructGet a b => fb 2 ++ enc_u a ++ enc_u b
  | I_StructGetS a b => fb 3 ++ enc_u a ++ enc_u b | I_StructGetU a b => fb 4 ++ enc_u a ++ enc_u b
  | I_StructSet a b => fb 5 ++ enc_u a ++ enc_u b | I_ArrayNew a => fb 6 ++ enc_u a
  | I_ArrayNewDefault a => fb 7 ++ enc_u a | I_ArrayNewFixed a b => fb 8 ++ enc_u a ++ enc_u b
  | I_ArrayNewData a b => fb 9 ++ enc_u a ++ enc_u b | I_ArrayNewElem a b => fb 10 ++ enc_u a ++ enc_u b
  | I_ArrayGet a => fb 11 ++ enc_u a | I_ArrayGetS a => fb 12 ++ enc_u a | I_ArrayGetU a => fb 13 ++ enc_u a
  | I_ArraySet a => fb 14 ++ enc_u a | I_ArrayLen => fb 15 | I_ArrayFill a => fb 16 ++ enc_u a
  | I_ArrayCopy a b => fb 17 ++ enc_u a ++ enc_u b | I_ArrayInitData a b => fb 18 ++ enc_u a ++ enc_u b
  | I_ArrayInitElem a b => fb 19 ++ enc_u a ++ enc_u b | I_AnyConvertExtern => fb 26
  | I_ExternConvertAny => fb 27 | I_RefI31 => fb 28 | I_I31GetS => fb 29 | I_I31GetU => fb 30
  | I_I32TruncSatF32S => fc 0 | I_I32TruncSatF32U => fc 1 | I_I32TruncSatF64S => fc 2
  | I_I32TruncSatF64U => fc 3 | I_I64TruncSatF32S => fc 4 | I_I64TruncSatF32U => fc 5
  | I_I64TruncSatF64S => fc 6 | I_I64TruncSatF64U => fc 7 | I_MemoryInit x y => fc 8 ++ enc_u y ++ enc_u x
  | I_DataDrop a => fc 9 ++ enc_u a | I_MemoryCopy a b => fc 10 ++ enc_u a ++ enc_u b
  | I_MemoryFill a => fc 11 ++ enc_u a | I_TableInit x y => fc 12 ++ enc_u y ++ enc_u x
  | I_ElemDrop a => fc 13 ++ enc_u a | I_TableCopy a b => fc 14 ++ enc_u a ++ enc_u b
  | I_TableGrow a => fc 15 ++ enc_u a | I_TableSize a => fc 16 ++ enc_u a | I_TableFill a => fc 17 ++ enc_u a
  | I_V128Load a => fd 0 ++ enc_memarg a | I_V128Load8x8S a => fd 1 ++ enc_memarg a
  | I_V128Load8x8U a => fd 2 ++ enc_memarg a | I_V128Load16x4S a => fd 3 ++ enc_memarg a
  | I_V128Load16x4U a => fd 4 ++ enc_memarg a | I_V128Load32x2S a => fd 5 ++ enc_memarg a
  | I_V128Load32x2U a => fd 6 ++ enc_memarg a | I_V128Load8Splat a => fd 7 ++ enc_memarg a
  | I_V128Load16Splat a => fd 8 ++ enc_memarg a | I_V128Load32Splat a => fd 9 ++ enc_memarg a
  | I_V128Load64Splat a => fd 10 ++ enc_memarg a | I_V128Store a => fd 11 ++ enc_memarg a
  | I_V128Const a => fd 12 ++ a | I_I8x16Shuffle a => fd 13 ++ a | I_I8x16Swizzle => fd 14
  | I_I8x16Splat => fd 15 | I_I16x8Splat => fd 16 | I_I32x4Splat => fd 17 | I_I64x2Splat => fd 18
  | I_F32x4Splat => fd 19 | I_F64x2Splat => fd 20 | I_I8x16ExtractLaneS a => fd 21 ++ enc_byte a
  | I_I8x16ExtractLaneU a => fd 22 ++ enc_byte a | I_I8x16ReplaceLane a => fd 23 ++ enc_byte a
  | I_I16x8ExtractLaneS a => fd 24 ++ enc_byte a | I_I16x8ExtractLaneU a => fd 25 ++ enc_byte a
  | I_I16x8ReplaceLane a => fd 26 ++ enc_byte a | I_I32x4ExtractLane a => fd 27 ++ enc_byte a
  | I_I32x4ReplaceLane a => fd 28 ++ enc_byte a | I_I64x2ExtractLane a => fd 29 ++ enc_byte a
  | I_I64x2ReplaceLane a => fd 30 ++ enc_byte a | I_F32x4ExtractLane a => fd 31 ++ enc_byte a
  | I_F32x4ReplaceLane a => fd 32 ++ enc_byte a | I_F64x2ExtractLane a => fd 33 ++ enc_byte a
  | I_F64x2ReplaceLane a => fd 34 ++ enc_byte a | I_I8x16Eq => fd 35 | I_I8x16Ne => fd 36 | I_I8x16LtS => fd 37
  | I_I8x16LtU => fd 38 | I_I8x16GtS => fd 39 | I_I8x16GtU => fd 40 | I_I8x16LeS => fd 41 | I_I8x16LeU => fd 42
  | I_I8x16GeS => fd 43 | I_I8x16GeU => fd 44 | I_I16x8Eq => fd 45 | I_I16x8Ne => fd 46 | I_I16x8LtS => fd 47
  | I_I16x8LtU => fd 48 | I_I16x8GtS => fd 49 | I_I16x8GtU => fd 50 | I_I16x8LeS => fd 51 | I_I16x8LeU => fd 52
  | I_I16x8GeS => fd 53 | I_I16x8GeU => fd 54 | I_I32x4Eq => fd 55 | I_I32x4Ne => fd 56 | I_I32x4LtS => fd 57
  | I_I32x4LtU => fd 58 | I_I32x4GtS => fd 59 | I_I32x4GtU => fd 60 | I_I32x4LeS => fd 61 | I_I32x4LeU => fd 62
  | I_I32x4GeS => fd 63 | I_I32x4GeU => fd 64 | I_F32x4Eq => fd 65 | I_F32x4Ne => fd 66 | I_F32x4Lt => fd 67
  | I_F32x4Gt => fd 68 | I_F32x4Le => fd 69 | I_F32x4Ge => fd 70 | I_F64x2Eq => fd 71 | I_F64x2Ne => fd 72
  | I_F64x2Lt => fd 73 | I_F64x2Gt => fd 74 | I_F64x2Le => fd 75 | I_F64x2Ge => fd 76 | I_V128Not => fd 77
  | I_V128And => fd 78 | I_V128AndNot => fd 79 | I_V128Or => fd 80 | I_V128Xor => fd 81
  | I_V128Bitselect => fd 82 | I_V128AnyTrue => fd 83
  | I_V128Load8Lane a b => fd 84 ++ enc_memarg a ++ enc_byte b
  | I_V128Load16Lane a b => fd 85 ++ enc_memarg a ++ enc_byte b
  | I_V128Load32Lane a b => fd 86 ++ enc_memarg a ++ enc_byte b
  | I_V128Load64Lane a b => fd 87 ++ enc_memarg a ++ enc_byte b
  | I_V128Store8Lane a b => fd 88 ++ enc_memarg a ++ enc_byte b
  | I_V128Store16Lane a b => fd 89 ++ enc_memarg a ++ enc_byte b
  | I_V128Store32Lane a b => fd 90 ++ enc_memarg a ++ enc_byte b
  | I_V128Store64Lane a b => fd 91 ++ enc_memarg a ++ enc_byte b | I_V128Load32Zero a => fd 92 ++ enc_memarg a
  | I_V128Load64Zero a => fd 93 ++ enc_memarg a | I_F32x4DemoteF64x2Zero => fd 94
  | I_F64x2PromoteLowF32x4 => fd 95 | I_I8x16Abs => fd 96 | I_I8x16Neg => fd 97 | I_I8x16Popcnt => fd 98
  | I_I8x16AllTrue => fd 99 | I_I8x16Bitmask => fd 100 | I_I8x16NarrowI16x8S => fd 101
  | I_I8x16NarrowI16x8U => fd 102 | I_F32x4Ceil => fd 103 | I_F32x4Floor => fd 104 | I_F32x4Trunc => fd 105
  | I_F32x4Nearest => fd 106 | I_I8x16Shl => fd 107 | I_I8x16ShrS => fd 108 | I_I8x16ShrU => fd 109
  | I_I8x16Add => fd 110 | I_I8x16AddSatS => fd 111 | I_I8x16AddSatU => fd 112 | I_I8x16Sub => fd 113
  | I_I8x16SubSatS => fd 114 | I_I8x16SubSatU => fd 115 | I_F64x2Ceil => fd 116 | I_F64x2Floor => fd 117
  | I_I8x16MinS => fd 118 | I_I8x16MinU => fd 119 | I_I8x16MaxS => fd 120 | I_I8x16MaxU => fd 121
  | I_F64x2Trunc => fd 122 | I_I8x16AvgrU => fd 123 | I_I16x8ExtaddPairwiseI8x16S => fd 124
  | I_I16x8ExtaddPairwiseI8x16U => fd 125 | I_I32x4ExtaddPairwiseI16x8S => fd 126
  | I_I32x4ExtaddPairwiseI16x8U => fd 127 | I_I16x8Abs => fd 128 | I_I16x8Neg => fd 129
  | I_I16x8Q15MulrSatS => fd 130 | I_I16x8AllTrue => fd 131 | I_I16x8Bitmask => fd 132
  | I_I16x8NarrowI32x4S => fd 133 | I_I16x8NarrowI32x4U => fd 134 | I_I16x8ExtendLowI8x16S => fd 135
  | I_I16x8ExtendHighI8x16S => fd 136 | I_I16x8ExtendLowI8x16U => fd 137 | I_I16x8ExtendHighI8x16U => fd 138
  | I_I16x8Shl => fd 139 | I_I16x8ShrS => fd 140 | I_I16x8ShrU => fd 141 | I_I16x8Add => fd 142
  | I_I16x8AddSatS => fd 143 | I_I16x8AddSatU => fd 144 | I_I16x8Sub => fd 145 | I_I16x8SubSatS => fd 146
  | I_I16x8SubSatU => fd 147 | I_F64x2Nearest => fd 148 | I_I16x8Mul => fd 149 | I_I16x8MinS => fd 150
  | I_I16x8MinU => fd 151 | I_I16x8MaxS => fd 152 | I_I16x8MaxU => fd 153 | I_I16x8AvgrU => fd 155
  | I_I16x8ExtmulLowI8x16S => fd 156 | I_I16x8ExtmulHighI8x16S => fd 157 | I_I16x8ExtmulLowI8x16U => fd 158
  | I_I16x8ExtmulHighI8x16U => fd 159 | I_I32x4Abs => fd 160 | I_I32x4Neg => fd 161 | I_I32x4AllTrue => fd 163
  | I_I32x4Bitmask => fd 164 | I_I32x4ExtendLowI16x8S => fd 167 | I_I32x4ExtendHighI16x8S => fd 168
  | I_I32x4ExtendLowI16x8U => fd 169 | I_I32x4ExtendHighI16x8U => fd 170 | I_I32x4Shl => fd 171
  | I_I32x4ShrS => fd 172 | I_I32x4ShrU => fd 173 | I_I32x4Add => fd 174 | I_I32x4Sub => fd 177
  | I_I32x4Mul => fd 181 | I_I32x4MinS => fd 182 | I_I32x4MinU => fd 183 | I_I32x4MaxS => fd 184
  | I_I32x4MaxU => fd 185 | I_I32x4DotI16x8S => fd 186 | I_I32x4ExtmulLowI16x8S => fd 188
  | I_I32x4ExtmulHighI16x8S => fd 189 | I_I32x4ExtmulLowI16x8U => fd 190 | I_I32x4ExtmulHighI16x8U => fd 191
  | I_I64x2Abs => fd 192 | I_I64x2Neg => fd 193 | I_I64x2AllTrue => fd 195 | I_I64x2Bitmask => fd 196
  | I_I64x2ExtendLowI32x4S => fd 199 | I_I64x2ExtendHighI32x4S => fd 200 | I_I64x2ExtendLowI32x4U => fd 201
  | I_I64x2ExtendHighI32x4U => fd 202 | I_I64x2Shl => fd 203 | I_I64x2ShrS => fd 204 | I_I64x2ShrU => fd 205
  | I_I64x2Add => fd 206 | I_I64x2Sub => fd 209 | I_I64x2Mul => fd 213 | I_I64x2Eq => fd 214
  | I_I64x2Ne => fd 215 | I_I64x2LtS => fd 216 | I_I64x2GtS => fd 217 | I_I64x2LeS => fd 218
  | I_I64x2GeS => fd 219 | I_I64x2ExtmulLowI32x4S => fd 220 | I_I64x2ExtmulHighI32x4S => fd 221
  | I_I64x2ExtmulLowI32x4U => fd 222 | I_I64x2ExtmulHighI32x4U => fd 223 | I_F32x4Abs => fd 224
  | I_F32x4Neg => fd 225 | I_F32x4Sqrt => fd 227 | I_F32x4Add => fd 228 | I_F32x4Sub => fd 229
  | I_F32x4Mul => fd 230 | I_F32x4Div => fd 231 | I_F32x4Min => fd 232 | I_F32x4Max => fd 233
  | I_F32x4PMin => fd 234 | I_F32x4PMax => fd 235 | I_F64x2Abs => fd 236 | I_F64x2Neg => fd 237
  | I_F64x2Sqrt => fd 239 | I_F64x2Add => fd 240 | I_F64x2Sub => fd 241 | I_F64x2Mul => fd 242
  | I_F64x2Div => fd 243 | I_F64x2Min => fd 244 | I_F64x2Max => fd 245 | I_F64x2PMin => fd 246
  | I_F64x2PMax => fd 247 | I_I32x4TruncSatF32x4S => fd 248 | I_I32x4TruncSatF32x4U => fd 249
  | I_F32x4ConvertI32x4S => fd 250 | I_F32x4ConvertI32x4U => fd 251 | I_I32x4TruncSatF64x2SZero => fd 252
  | I_I32x4TruncSatF64x2UZero => fd 253 | I_F64x2ConvertLowI32x4S => fd 254 | I_F64x2ConvertLowI32x4U => fd 255
  | I_I8x16RelaxedSwizzle => fd 256 | I_I32x4RelaxedTruncF32x4S => fd 257 | I_I32x4RelaxedTruncF32x4U => fd 258
  | I_I32x4RelaxedTruncF64x2SZero => fd 259 | I_I32x4RelaxedTruncF64x2UZero => fd 260
  | I_F32x4RelaxedMAdd => fd 261 | I_F32x4RelaxedNMAdd => fd 262 | I_F64x2RelaxedMAdd => fd 263
  | I_F64x2RelaxedNMAdd => fd 264 | I_I8x16RelaxedLaneSelect => fd 265 | I_I16x8RelaxedLaneSelect => fd 266
  | I_I32x4RelaxedLaneSelect => fd 267 | I_I64x2RelaxedLaneSelect => fd 268 | I_F32x4RelaxedMin => fd 269
  | I_F32x4RelaxedMax => fd 270 | I_F64x2RelaxedMin => fd 271 | I_F64x2RelaxedMax => fd 272
  | I_I16x8RelaxedQ15MulrS => fd 273 | I_I16x8RelaxedDotSI8x16 => fd 274 | I_I32x4RelaxedDotAddSI16x8 => fd 275
  end.
(** all elements *)
Definition every {A} (P : A -> Prop) : list A -> Prop := fix every l := match l with [] => True | x :: l => P x /\ every l end.
Fixpoint fit_instr (i : instr) : Prop :=
  match i with
  | I_Block bt is | I_Loop bt is => fit_blocktype bt /\ every fit_instr is
  | I_If bt is1 o => fit_blocktype bt /\ every fit_instr is1 /\
      match o with Some is2 => every fit_instr is2 | None => True end
  | I_TryTable bt cs is => fit_blocktype bt /\ fit_list fit_catch cs /\ every fit_instr is
  | I_Select (Some ts) => fit_list fit_valtype ts
  | I_RefTest t | I_RefCast t => fit_reftype t
  | I_BrOnCast l t1 t2 | I_BrOnCastFail l t1 t2 => fit_u32 l /\ fit_reftype t1 /\ fit_reftype t2
  | I_Throw a | I_Br a | I_BrIf a | I_Call a | I_ReturnCall a | I_CallRef a | I_ReturnCallRef a | I_LocalGet a
      | I_LocalSet a | I_LocalTee a | I_GlobalGet a | I_GlobalSet a | I_TableGet a | I_TableSet a |
      I_MemorySize a | I_MemoryGrow a | I_F32Const a | I_RefFunc a | I_BrOnNull a | I_BrOnNonNull a |
      I_StructNew a | I_StructNewDefault a | I_ArrayNew a | I_ArrayNewDefault a | I_ArrayGet a | I_ArrayGetS a
      | I_ArrayGetU a | I_ArraySet a | I_ArrayFill a | I_DataDrop a | I_MemoryFill a | I_ElemDrop a |
      I_TableGrow a | I_TableSize a | I_TableFill a => fit_u32 a
  | I_BrTable a b => fit_list fit_u32 a /\ fit_u32 b
  | I_CallIndirect x y | I_ReturnCallIndirect x y | I_MemoryInit x y | I_TableInit x y => fit_u32 y /\ fit_u32
      x
  | I_I32Load a | I_I64Load a | I_F32Load a | I_F64Load a | I_I32Load8s a | I_I32Load8u a | I_I32Load16s a |
      I_I32Load16u a | I_I64Load8s a | I_I64Load8u a | I_I64Load16s a | I_I64Load16u a | I_I64Load32s a |
      I_I64Load32u a | I_I32Store a | I_I64Store a | I_F32Store a | I_F64Store a | I_I32Store8 a |
      I_I32Store16 a | I_I64Store8 a | I_I64Store16 a | I_I64Store32 a | I_V128Load a | I_V128Load8x8S a |
      I_V128Load8x8U a | I_V128Load16x4S a | I_V128Load16x4U a | I_V128Load32x2S a | I_V128Load32x2U a |
      I_V128Load8Splat a | I_V128Load16Splat a | I_V128Load32Splat a | I_V128Load64Splat a | I_V128Store a |
      I_V128Load8Lane a _ | I_V128Load16Lane a _ | I_V128Load32Lane a _ | I_V128Load64Lane a _ |
      I_V128Store8Lane a _ | I_V128Store16Lane a _ | I_V128Store32Lane a _ | I_V128Store64Lane a _ |
      I_V128Load32Zero a | I_V128Load64Zero a => fit_memarg a
  | I_I32Const a => fit_i32 a
  | I_I64Const a => fit_i64 a
  | I_F64Const a => fit_u64 a
  | I_RefNull a => fit_heaptype a
  | I_StructGet a b | I_StructGetS a b | I_StructGetU a b | I_StructSet a b | I_ArrayNewFixed a b |
      I_ArrayNewData a b | I_ArrayNewElem a b | I_ArrayCopy a b | I_ArrayInitData a b | I_ArrayInitElem a b |
      I_MemoryCopy a b | I_TableCopy a b => fit_u32 a /\ fit_u32 b
  | I_V128Const a | I_I8x16Shuffle a => fit_bytes 16 a
  | _ => True
  end.
Definition enc_expr (e : Expr) : list byte := flat_map enc_instr e ++ [x0b].
Definition fit_expr (e : Expr) : Prop := Forall fit_instr e.

(** ** Entries of sections *)
Definition enc_import (i : Import) : list byte := enc_name (im_module i) ++ enc_name (im_item i) ++ enc_externtype (im_type i).
Definition fit_import (i : Import) : Prop := fit_name (im_module i) /\ fit_name (im_item i) /\ fit_externtype (im_type i).
Definition absheaptype_eq_dec (a b : AbsHeapType) : {a = b} + {a <> b}. Proof. decide equality. Defined.
Definition heaptype_eq_dec (a b : HeapType) : {a = b} + {a <> b}. Proof. decide equality; [apply absheaptype_eq_dec|apply N.eq_dec]. Defined.
Definition valtype_eq_dec (a b : ValType) : {a = b} + {a <> b}.
Proof. decide equality; [decide equality|decide equality|]. decide equality; [apply heaptype_eq_dec|apply bool_dec]. Defined.
(** the initialiser of a table may be left out if it is [ref.null] of the table's heap type *)
Definition enc_table (t : Table) : list byte :=
  let long := x40 :: x00 :: enc_tabletype (t_type t) ++ enc_expr (t_init t) in
  match t_init t with
  | [I_RefNull h] => if heaptype_eq_dec h (ht (tt_reftype (t_type t))) then enc_tabletype (t_type t) else long
  | _ => long
  end.
Definition fit_table (t : Table) : Prop := fit_tabletype (t_type t) /\ fit_expr (t_init t).
Definition enc_global (g : Global) : list byte := enc_globaltype (g_type g) ++ enc_expr (g_init g).
Definition fit_global (g : Global) : Prop := fit_globaltype (g_type g) /\ fit_expr (g_init g).
Definition enc_externidx (d : ExternIdx) : list byte :=
  match d with
  | EI_Func x => x00 :: enc_u x | EI_Table x => x01 :: enc_u x | EI_Mem x => x02 :: enc_u x
  | EI_Global x => x03 :: enc_u x | EI_Tag x => x04 :: enc_u x
  end.
Definition fit_externidx (d : ExternIdx) : Prop :=
  match d with EI_Func x | EI_Table x | EI_Mem x | EI_Global x | EI_Tag x => fit_u32 x end.
Definition enc_export (e : Export) : list byte := enc_name (ex_name e) ++ enc_externidx (ex_idx e).
Definition fit_export (e : Export) : Prop := fit_name (ex_name e) /\ fit_externidx (ex_idx e).
(** [Some ys] if the expressions are [ref.func y] for each [y] of [ys] *)
Fixpoint only_ref_funcs (es : list Expr) : option (list FuncIdx) :=
  match es with
  | [] => Some []
  | [I_RefFunc y] :: es => match only_ref_funcs es with Some ys => Some (y :: ys) | None => None end
  | _ => None
  end.
(** element segments: by function indices where possible, and whichever form is
    the shortest *)
Definition enc_elem (e : Elem) : list byte :=
  let es := enc_list enc_expr (e_init e) in
  let rt := enc_reftype (e_type e) in
  let long := match e_mode e with
    | EM_Passive => x05 :: rt ++ es
    | EM_Active x o => x06 :: enc_u x ++ enc_expr o ++ rt ++ es
    | EM_Declare => x07 :: rt ++ es
    end in
  let by_index := match only_ref_funcs (e_init e), e_type e, e_mode e with
    | Some ys, mkRefType false (Ht AH_Func), EM_Active N0 o => x00 :: enc_expr o ++ enc_list enc_u ys
    | Some ys, mkRefType true (Ht AH_Func), EM_Passive => x01 :: x00 :: enc_list enc_u ys
    | Some ys, mkRefType true (Ht AH_Func), EM_Active x o => x02 :: enc_u x ++ enc_expr o ++ [x00] ++ enc_list enc_u ys
    | Some ys, mkRefType true (Ht AH_Func), EM_Declare => x03 :: x00 :: enc_list enc_u ys
    | _, _, _ => long
    end in
  let func_exprs := match e_type e, e_mode e with
    | mkRefType true (Ht AH_Func), EM_Active N0 o => x04 :: enc_expr o ++ es
    | _, _ => long
    end in
  shorter by_index (shorter func_exprs long).
Definition fit_elem (e : Elem) : Prop :=
  fit_reftype (e_type e) /\ fit_list fit_expr (e_init e) /\
  match e_mode e with EM_Active x o => fit_u32 x /\ fit_expr o | _ => True end.
(** locals: runs of equal types *)
Fixpoint runs (l : list ValType) : list (N * ValType) :=
  match l with
  | [] => []
  | t :: l => match runs l with
    | (n, t') :: g => if valtype_eq_dec t t' then (N.succ n, t') :: g else (1%N, t) :: (n, t') :: g
    | [] => [(1%N, t)]
    end
  end.
Definition enc_func (f : list ValType * Expr) : list byte :=
  enc_list (fun '(n, t) => enc_u n ++ enc_valtype t) (runs (fst f)) ++ enc_expr (snd f).
Definition fit_func (f : list ValType * Expr) : Prop :=
  (N.of_nat (length (fst f)) < 2 ^ 32)%N /\ Forall fit_valtype (fst f) /\ fit_expr (snd f).
(** bytes preceded by their number *)
Definition sized (bs : list byte) : list byte := enc_u (N.of_nat (length bs)) ++ bs.
Definition fit_size (bs : list byte) : Prop := (N.of_nat (length bs) < 2 ^ 32)%N.
Definition enc_code (f : list ValType * Expr) : list byte := sized (enc_func f).
Definition fit_code (f : list ValType * Expr) : Prop := fit_func f /\ fit_size (enc_func f).
Definition enc_data (d : Data) : list byte :=
  let bs := enc_list enc_byte (d_init d) in
  match d_mode d with
  | DM_Passive => x01 :: bs
  | DM_Active N0 o => x00 :: enc_expr o ++ bs
  | DM_Active x o => x02 :: enc_u x ++ enc_expr o ++ bs
  end.
Definition fit_data (d : Data) : Prop :=
  fit_list (fun _ => True) (d_init d) /\ match d_mode d with DM_Active x o => fit_u32 x /\ fit_expr o | DM_Passive => True end.
Definition enc_custom (c : CustomSection) : list byte := enc_name (cs_name c) ++ cs_contents c.
Definition fit_custom (c : CustomSection) : Prop := fit_name (cs_name c).

(** ** Sections *)
Definition enc_contents (s : section) : list byte :=
  match s with
  | SCustom c => enc_custom c | SType l => enc_list enc_rectype l | SImport l => enc_list enc_import l
  | SFunction l => enc_list enc_u l | STable l => enc_list enc_table l | SMemory l => enc_list enc_memtype l
  | STag l => enc_list enc_tagtype l | SGlobal l => enc_list enc_global l | SExport l => enc_list enc_export l
  | SStart x => enc_u x | SElement l => enc_list enc_elem l | SDataCount n => enc_u n
  | SCode l => enc_list enc_code l | SData l => enc_list enc_data l
  end.
Definition fit_contents (s : section) : Prop :=
  match s with
  | SCustom c => fit_custom c | SType l => fit_list fit_rectype l | SImport l => fit_list fit_import l
  | SFunction l => fit_list fit_u32 l | STable l => fit_list fit_table l | SMemory l => fit_list fit_memtype l
  | STag l => fit_list fit_tagtype l | SGlobal l => fit_list fit_global l | SExport l => fit_list fit_export l
  | SStart x => fit_u32 x | SElement l => fit_list fit_elem l | SDataCount n => fit_u32 n
  | SCode l => fit_list fit_code l | SData l => fit_list fit_data l
  end.
Definition enc_section (s : section) : list byte := id_of (kind_of s) :: sized (enc_contents s).
Definition fit_section (s : section) : Prop := fit_contents s /\ fit_size (enc_contents s).

(** ** Modules *)
(** the sections of a module: kinds and order from its section headers,
    contents from its fields *)
Fixpoint sections_from (m : Module_) (ks : list SectionKind) (cs : list CustomSection) : list section :=
  match ks with
  | [] => []
  | SK_Custom :: ks => match cs with c :: cs => SCustom c :: sections_from m ks cs | [] => sections_from m ks [] end
  | SK_Type :: ks => SType (types m) :: sections_from m ks cs
  | SK_Import :: ks => SImport (imports m) :: sections_from m ks cs
  | SK_Function :: ks => SFunction (map f_type (funcs m)) :: sections_from m ks cs
  | SK_Table :: ks => STable (tables m) :: sections_from m ks cs
  | SK_Memory :: ks => SMemory (mems m) :: sections_from m ks cs
  | SK_Tag :: ks => STag (tags m) :: sections_from m ks cs
  | SK_Global :: ks => SGlobal (globals m) :: sections_from m ks cs
  | SK_Export :: ks => SExport (exports m) :: sections_from m ks cs
  | SK_Start :: ks => match start m with Some x => SStart x :: sections_from m ks cs | None => sections_from m ks cs end
  | SK_Element :: ks => SElement (elems m) :: sections_from m ks cs
  | SK_DataCount :: ks => match data_count m with Some n => SDataCount n :: sections_from m ks cs | None => sections_from m ks cs end
  | SK_Code :: ks => SCode (map (fun f => (f_locals f, f_body f)) (funcs m)) :: sections_from m ks cs
  | SK_Data :: ks => SData (datas m) :: sections_from m ks cs
  end.
Definition kinds_of (m : Module_) : list SectionKind := map sh_kind (section_headers m).
Definition sections (m : Module_) : list section := sections_from m (kinds_of m) (custom_sections m).
Definition encode (m : Module_) : list byte := magic ++ version1 ++ flat_map enc_section (sections m).
(** a module with other section headers *)
Definition with_headers (hs : list SectionHeader) (m : Module_) : Module_ :=
  {| version := version m; parsed_section_kinds := parsed_section_kinds m; section_headers := hs;
     custom_sections := custom_sections m; types := types m; funcs := funcs m; tables := tables m; mems := mems m;
     globals := globals m; elems := elems m; data_count := data_count m; datas := datas m; start := start m;
     imports := imports m; exports := exports m; tags := tags m |}.
(** the module with the section sizes of its shortest encoding *)
Definition resized (m : Module_) : Module_ :=
  with_headers (map (fun s => mkHeader (kind_of s) (N.of_nat (length (enc_contents s)))) (sections m)) m.
(** equal up to the sizes recorded in the section headers *)
Definition same_but_sizes (m m' : Module_) : Prop := kinds_of m = kinds_of m' /\ with_headers [] m = with_headers [] m'.

Definition not_custom (k : SectionKind) : bool := match k with SK_Custom => false | _ => true end.
Record representable (m : Module_) : Prop := {
  r_version : version m = version1;
  r_kinds : parsed_section_kinds m = filter not_custom (kinds_of m);
  r_order : subseq (parsed_section_kinds m) section_order;
  r_customs : length (filter (fun k => negb (not_custom k)) (kinds_of m)) = length (custom_sections m);
  (* whatever there is has a section to be in *)
  r_types : types m <> [] -> In SK_Type (kinds_of m);
  r_imports : imports m <> [] -> In SK_Import (kinds_of m);
  r_functions : funcs m <> [] -> In SK_Function (kinds_of m) /\ In SK_Code (kinds_of m);
  r_tables : tables m <> [] -> In SK_Table (kinds_of m);
  r_mems : mems m <> [] -> In SK_Memory (kinds_of m);
  r_tags : tags m <> [] -> In SK_Tag (kinds_of m);
  r_globals : globals m <> [] -> In SK_Global (kinds_of m);
  r_exports : exports m <> [] -> In SK_Export (kinds_of m);
  r_start : start m <> None <-> In SK_Start (kinds_of m);
  r_elems : elems m <> [] -> In SK_Element (kinds_of m);
  r_datacount : data_count m <> None <-> In SK_DataCount (kinds_of m);
  r_datas : datas m <> [] -> In SK_Data (kinds_of m);
  (* the data count *)
  r_count : forall n, data_count m = Some n -> n = N.of_nat (length (datas m));
  r_mentions : data_count m = None -> forall f i, In f (funcs m) -> In i (f_body f) -> ~ mentions_data i;
  (* ranges and sizes *)
  r_fits : Forall fit_section (sections m)
}.
(** [h] is the header of an encoding of [s] *)
Definition can_take (s : section) (h : SectionHeader) : Prop :=
  sh_kind h = kind_of s /\ exists b, Bcontents s b /\ sh_size h = N.of_nat (length b) /\ (sh_size h < 2 ^ 32)%N.
