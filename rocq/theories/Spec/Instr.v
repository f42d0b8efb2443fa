(** Specification, part 3: instructions (5.4) *)
From Verif Require Import Model.Ast Spec.Lang Spec.Types.
Local Open Scope N_scope.

(** consecutive opcodes starting at [n] *)
Fixpoint run {A} (n : N) (l : list A) : list (N * A) :=
  match l with [] => [] | x :: l' => (n, x) :: run (N.succ n) l' end.

(** 5.4.4 memory arguments *)
Inductive Bmemarg : lang Memarg :=
| Bma_0 n m bs1 bs2 : Bu32 n bs1 -> (n < 2 ^ 6)%N -> Bu64 m bs2 -> Bmemarg (mkMemarg 0 n m) (bs1 ++ bs2)
| Bma_x n x m bs1 bs2 bs3 : Bu32 n bs1 -> (2 ^ 6 <= n < 2 ^ 7)%N -> Bidx x bs2 -> Bu64 m bs3 ->
    Bmemarg (mkMemarg x (n - 2 ^ 6) m) (bs1 ++ bs2 ++ bs3).

(** 5.4.1 block types, catch clauses, cast operators *)
Inductive Bblocktype : lang BlockType :=
| Bbt_empty : Bblocktype BT_Empty [x40]
| Bbt_val t bs : Bvaltype t bs -> Bblocktype (BT_T t) bs
| Bbt_idx x bs : Bs33 (Z.of_N x) bs -> Bblocktype (BT_I x) bs.     (* s33, if >= 0 *)
Inductive Bcatch : lang Catch :=
| Bcatch_catch x l bs1 bs2 : Bidx x bs1 -> Bidx l bs2 -> Bcatch (C_Catch x l) (x00 :: bs1 ++ bs2)
| Bcatch_ref x l bs1 bs2 : Bidx x bs1 -> Bidx l bs2 -> Bcatch (C_CatchRef x l) (x01 :: bs1 ++ bs2)
| Bcatch_all l bs : Bidx l bs -> Bcatch (C_CatchAll l) (x02 :: bs)
| Bcatch_all_ref l bs : Bidx l bs -> Bcatch (C_CatchAllRef l) (x03 :: bs).
(** (null1?, null2?) *)
Inductive Bcastop : lang (bool * bool) :=
| Bcastop_0 : Bcastop (false, false) [x00]
| Bcastop_1 : Bcastop (true, false) [x01]
| Bcastop_2 : Bcastop (false, true) [x02]
| Bcastop_3 : Bcastop (true, true) [x03].

(** Shapes of immediates: the instruction built from immediates read in the
    order given. *)
Inductive imm1 {A} (f : A -> instr) (X : lang A) : lang instr :=
| imm1_intro a bs : X a bs -> imm1 f X (f a) bs.
Inductive imm2 {A B} (f : A -> B -> instr) (X : lang A) (Y : lang B) : lang instr :=
| imm2_intro a b bs1 bs2 : X a bs1 -> Y b bs2 -> imm2 f X Y (f a b) (bs1 ++ bs2).
Inductive Bbr_on_cast (f : LabelIdx -> RefType -> RefType -> instr) : lang instr :=
| Bbr_on_cast_intro n1 n2 l h1 h2 bs1 bs2 bs3 bs4 :
    Bcastop (n1, n2) bs1 -> Bidx l bs2 -> Bheaptype h1 bs3 -> Bheaptype h2 bs4 ->
    Bbr_on_cast f (f l (mkRefType n1 h1) (mkRefType n2 h2)) (bs1 ++ bs2 ++ bs3 ++ bs4).
Definition imm0 (i : instr) : lang instr := fun i' bs => i' = i /\ bs = [].

(** one-byte opcodes that are not structured *)
Definition ops : list (N * lang instr) :=
  run 0x00 [imm0 I_Unreachable; imm0 I_Nop] ++
  [ (0x08, imm1 I_Throw Bidx) ] ++
  [ (0x0A, imm0 I_ThrowRef) ] ++
  run 0x0C
    [ imm1 I_Br Bidx; imm1 I_BrIf Bidx; imm2 I_BrTable (Blist Bidx) Bidx; imm0 I_Return;
      (* 0x10 *) imm1 I_Call Bidx;
      (* 0x11: y:typeidx x:tableidx => call_indirect x y *) imm2 (fun y x => I_CallIndirect x y) Bidx Bidx;
      (* 0x12 *) imm1 I_ReturnCall Bidx;
      (* 0x13 *) imm2 (fun y x => I_ReturnCallIndirect x y) Bidx Bidx;
      (* 0x14 *) imm1 I_CallRef Bidx; imm1 I_ReturnCallRef Bidx ] ++
  run 0x1A [ imm0 I_Drop; imm0 (I_Select None); imm1 (fun t => I_Select (Some t)) (Blist Bvaltype) ] ++
  run 0x20
    [ imm1 I_LocalGet Bidx; imm1 I_LocalSet Bidx; imm1 I_LocalTee Bidx;
      imm1 I_GlobalGet Bidx; imm1 I_GlobalSet Bidx;
      imm1 I_TableGet Bidx; imm1 I_TableSet Bidx ] ++
  run 0x28 (map (fun f => imm1 f Bmemarg)
    [ I_I32Load; I_I64Load; I_F32Load; I_F64Load;
      I_I32Load8s; I_I32Load8u; I_I32Load16s; I_I32Load16u;
      I_I64Load8s; I_I64Load8u; I_I64Load16s; I_I64Load16u; I_I64Load32s; I_I64Load32u;
      I_I32Store; I_I64Store; I_F32Store; I_F64Store;
      I_I32Store8; I_I32Store16; I_I64Store8; I_I64Store16; I_I64Store32 ]) ++
  run 0x3F [ imm1 I_MemorySize Bidx; imm1 I_MemoryGrow Bidx ] ++
  run 0x41 [ imm1 I_I32Const Bi32; imm1 I_I64Const Bi64; imm1 I_F32Const Bf32; imm1 I_F64Const Bf64 ] ++
  run 0x45 (map imm0
    [ I_I32Eqz; I_I32Eq; I_I32Ne; I_I32LtS; I_I32LtU; I_I32GtS; I_I32GtU; I_I32LeS; I_I32LeU; I_I32GeS; I_I32GeU;
      (* 0x50 *)
      I_I64Eqz; I_I64Eq; I_I64Ne; I_I64LtS; I_I64LtU; I_I64GtS; I_I64GtU; I_I64LeS; I_I64LeU; I_I64GeS; I_I64GeU;
      (* 0x5B *)
      I_F32Eq; I_F32Ne; I_F32Lt; I_F32Gt; I_F32Le; I_F32Ge;
      I_F64Eq; I_F64Ne; I_F64Lt; I_F64Gt; I_F64Le; I_F64Ge;
      (* 0x67 *)
      I_I32Clz; I_I32Ctz; I_I32Popcnt; I_I32Add; I_I32Sub; I_I32Mul; I_I32DivS; I_I32DivU; I_I32RemS; I_I32RemU;
      I_I32And; I_I32Or; I_I32Xor; I_I32Shl; I_I32ShrS; I_I32ShrU; I_I32Rotl; I_I32Rotr;
      (* 0x79 *)
      I_I64Clz; I_I64Ctz; I_I64Popcnt; I_I64Add; I_I64Sub; I_I64Mul; I_I64DivS; I_I64DivU; I_I64RemS; I_I64RemU;
      I_I64And; I_I64Or; I_I64Xor; I_I64Shl; I_I64ShrS; I_I64ShrU; I_I64Rotl; I_I64Rotr;
      (* 0x8B *)
      I_F32Abs; I_F32Neg; I_F32Ceil; I_F32Floor; I_F32Trunc; I_F32Nearest; I_F32Sqrt;
      I_F32Add; I_F32Sub; I_F32Mul; I_F32Div; I_F32Min; I_F32Max; I_F32Copysign;
      (* 0x99 *)
      I_F64Abs; I_F64Neg; I_F64Ceil; I_F64Floor; I_F64Trunc; I_F64Nearest; I_F64Sqrt;
      I_F64Add; I_F64Sub; I_F64Mul; I_F64Div; I_F64Min; I_F64Max; I_F64Copysign;
      (* 0xA7 *)
      I_I32WrapI64; I_I32TruncF32S; I_I32TruncF32U; I_I32TruncF64S; I_I32TruncF64U;
      I_I64ExtendI32S; I_I64ExtendI32U; I_I64TruncF32S; I_I64TruncF32U; I_I64TruncF64S; I_I64TruncF64U;
      I_F32ConvertI32S; I_F32ConvertI32U; I_F32ConvertI64S; I_F32ConvertI64U; I_F32DemoteF64;
      I_F64ConvertI32S; I_F64ConvertI32U; I_F64ConvertI64S; I_F64ConvertI64U; I_F64PromoteF32;
      I_I32ReinterpretF32; I_I64ReinterpretF64; I_F32ReinterpretI32; I_F64ReinterpretI64;
      (* 0xC0 *)
      I_I32Extend8S; I_I32Extend16S; I_I64Extend8S; I_I64Extend16S; I_I64Extend32S ]) ++
  run 0xD0
    [ imm1 I_RefNull Bheaptype; imm0 I_RefIsNull; imm1 I_RefFunc Bidx; imm0 I_RefEq; imm0 I_RefAsNonNull;
      imm1 I_BrOnNull Bidx; imm1 I_BrOnNonNull Bidx ].

(** 0xFB n:u32 *)
Definition ops_fb : list (N * lang instr) :=
  run 0
    [ imm1 I_StructNew Bidx; imm1 I_StructNewDefault Bidx;
      imm2 I_StructGet Bidx Bu32; imm2 I_StructGetS Bidx Bu32; imm2 I_StructGetU Bidx Bu32; imm2 I_StructSet Bidx Bu32;
      (* 6 *)
      imm1 I_ArrayNew Bidx; imm1 I_ArrayNewDefault Bidx; imm2 I_ArrayNewFixed Bidx Bu32;
      imm2 I_ArrayNewData Bidx Bidx; imm2 I_ArrayNewElem Bidx Bidx;
      (* 11 *)
      imm1 I_ArrayGet Bidx; imm1 I_ArrayGetS Bidx; imm1 I_ArrayGetU Bidx; imm1 I_ArraySet Bidx; imm0 I_ArrayLen;
      imm1 I_ArrayFill Bidx; imm2 I_ArrayCopy Bidx Bidx; imm2 I_ArrayInitData Bidx Bidx; imm2 I_ArrayInitElem Bidx Bidx;
      (* 20 *)
      imm1 (fun h => I_RefTest (mkRefType false h)) Bheaptype; imm1 (fun h => I_RefTest (mkRefType true h)) Bheaptype;
      imm1 (fun h => I_RefCast (mkRefType false h)) Bheaptype; imm1 (fun h => I_RefCast (mkRefType true h)) Bheaptype;
      (* 24 *)
      Bbr_on_cast I_BrOnCast; Bbr_on_cast I_BrOnCastFail;
      imm0 I_AnyConvertExtern; imm0 I_ExternConvertAny;
      imm0 I_RefI31; imm0 I_I31GetS; imm0 I_I31GetU ].

(** 0xFC n:u32 *)
Definition ops_fc : list (N * lang instr) :=
  run 0
    [ imm0 I_I32TruncSatF32S; imm0 I_I32TruncSatF32U; imm0 I_I32TruncSatF64S; imm0 I_I32TruncSatF64U;
      imm0 I_I64TruncSatF32S; imm0 I_I64TruncSatF32U; imm0 I_I64TruncSatF64S; imm0 I_I64TruncSatF64U;
      (* 8: y:dataidx x:memidx => memory.init x y *) imm2 (fun y x => I_MemoryInit x y) Bidx Bidx;
      imm1 I_DataDrop Bidx;
      imm2 I_MemoryCopy Bidx Bidx;
      imm1 I_MemoryFill Bidx;
      (* 12: y:elemidx x:tableidx => table.init x y *) imm2 (fun y x => I_TableInit x y) Bidx Bidx;
      imm1 I_ElemDrop Bidx;
      imm2 I_TableCopy Bidx Bidx;
      imm1 I_TableGrow Bidx; imm1 I_TableSize Bidx; imm1 I_TableFill Bidx ].

(** 0xFD n:u32; numbers missing here are unassigned *)
Definition ops_fd : list (N * lang instr) :=
  run 0 (map (fun f => imm1 f Bmemarg)
    [ I_V128Load; I_V128Load8x8S; I_V128Load8x8U; I_V128Load16x4S; I_V128Load16x4U; I_V128Load32x2S; I_V128Load32x2U;
      I_V128Load8Splat; I_V128Load16Splat; I_V128Load32Splat; I_V128Load64Splat; I_V128Store ]) ++
  run 12 [ imm1 I_V128Const (Bbytes 16); imm1 I_I8x16Shuffle (Bbytes 16) ] ++
  run 14 (map imm0
    [ I_I8x16Swizzle; I_I8x16Splat; I_I16x8Splat; I_I32x4Splat; I_I64x2Splat; I_F32x4Splat; I_F64x2Splat ]) ++
  run 21 (map (fun f => imm1 f Bbyte)
    [ I_I8x16ExtractLaneS; I_I8x16ExtractLaneU; I_I8x16ReplaceLane;
      I_I16x8ExtractLaneS; I_I16x8ExtractLaneU; I_I16x8ReplaceLane;
      I_I32x4ExtractLane; I_I32x4ReplaceLane; I_I64x2ExtractLane; I_I64x2ReplaceLane;
      I_F32x4ExtractLane; I_F32x4ReplaceLane; I_F64x2ExtractLane; I_F64x2ReplaceLane ]) ++
  run 35 (map imm0
    [ I_I8x16Eq; I_I8x16Ne; I_I8x16LtS; I_I8x16LtU; I_I8x16GtS; I_I8x16GtU; I_I8x16LeS; I_I8x16LeU; I_I8x16GeS; I_I8x16GeU;
      I_I16x8Eq; I_I16x8Ne; I_I16x8LtS; I_I16x8LtU; I_I16x8GtS; I_I16x8GtU; I_I16x8LeS; I_I16x8LeU; I_I16x8GeS; I_I16x8GeU;
      I_I32x4Eq; I_I32x4Ne; I_I32x4LtS; I_I32x4LtU; I_I32x4GtS; I_I32x4GtU; I_I32x4LeS; I_I32x4LeU; I_I32x4GeS; I_I32x4GeU;
      I_F32x4Eq; I_F32x4Ne; I_F32x4Lt; I_F32x4Gt; I_F32x4Le; I_F32x4Ge;
      I_F64x2Eq; I_F64x2Ne; I_F64x2Lt; I_F64x2Gt; I_F64x2Le; I_F64x2Ge;
      (* 77 *)
      I_V128Not; I_V128And; I_V128AndNot; I_V128Or; I_V128Xor; I_V128Bitselect; I_V128AnyTrue ]) ++
  run 84 (map (fun f => imm2 f Bmemarg Bbyte)
    [ I_V128Load8Lane; I_V128Load16Lane; I_V128Load32Lane; I_V128Load64Lane;
      I_V128Store8Lane; I_V128Store16Lane; I_V128Store32Lane; I_V128Store64Lane ]) ++
  run 92 [ imm1 I_V128Load32Zero Bmemarg; imm1 I_V128Load64Zero Bmemarg ] ++
  run 94 (map imm0
    [ I_F32x4DemoteF64x2Zero; I_F64x2PromoteLowF32x4;
      (* 96 *)
      I_I8x16Abs; I_I8x16Neg; I_I8x16Popcnt; I_I8x16AllTrue; I_I8x16Bitmask; I_I8x16NarrowI16x8S; I_I8x16NarrowI16x8U;
      (* 103 *) I_F32x4Ceil; I_F32x4Floor; I_F32x4Trunc; I_F32x4Nearest;
      (* 107 *) I_I8x16Shl; I_I8x16ShrS; I_I8x16ShrU; I_I8x16Add; I_I8x16AddSatS; I_I8x16AddSatU;
      (* 113 *) I_I8x16Sub; I_I8x16SubSatS; I_I8x16SubSatU;
      (* 116 *) I_F64x2Ceil; I_F64x2Floor;
      (* 118 *) I_I8x16MinS; I_I8x16MinU; I_I8x16MaxS; I_I8x16MaxU;
      (* 122 *) I_F64x2Trunc;
      (* 123 *) I_I8x16AvgrU;
      (* 124 *) I_I16x8ExtaddPairwiseI8x16S; I_I16x8ExtaddPairwiseI8x16U;
      (* 126 *) I_I32x4ExtaddPairwiseI16x8S; I_I32x4ExtaddPairwiseI16x8U;
      (* 128 *) I_I16x8Abs; I_I16x8Neg; I_I16x8Q15MulrSatS; I_I16x8AllTrue; I_I16x8Bitmask;
      (* 133 *) I_I16x8NarrowI32x4S; I_I16x8NarrowI32x4U;
      (* 135 *) I_I16x8ExtendLowI8x16S; I_I16x8ExtendHighI8x16S; I_I16x8ExtendLowI8x16U; I_I16x8ExtendHighI8x16U;
      (* 139 *) I_I16x8Shl; I_I16x8ShrS; I_I16x8ShrU; I_I16x8Add; I_I16x8AddSatS; I_I16x8AddSatU;
      (* 145 *) I_I16x8Sub; I_I16x8SubSatS; I_I16x8SubSatU;
      (* 148 *) I_F64x2Nearest;
      (* 149 *) I_I16x8Mul; I_I16x8MinS; I_I16x8MinU; I_I16x8MaxS; I_I16x8MaxU ]) ++
  run 155 (map imm0
    [ I_I16x8AvgrU;
      I_I16x8ExtmulLowI8x16S; I_I16x8ExtmulHighI8x16S; I_I16x8ExtmulLowI8x16U; I_I16x8ExtmulHighI8x16U;
      (* 160 *) I_I32x4Abs; I_I32x4Neg ]) ++
  run 163 (map imm0 [ I_I32x4AllTrue; I_I32x4Bitmask ]) ++
  run 167 (map imm0
    [ I_I32x4ExtendLowI16x8S; I_I32x4ExtendHighI16x8S; I_I32x4ExtendLowI16x8U; I_I32x4ExtendHighI16x8U;
      I_I32x4Shl; I_I32x4ShrS; I_I32x4ShrU; I_I32x4Add ]) ++
  run 177 (map imm0 [ I_I32x4Sub ]) ++
  run 181 (map imm0
    [ I_I32x4Mul; I_I32x4MinS; I_I32x4MinU; I_I32x4MaxS; I_I32x4MaxU; I_I32x4DotI16x8S ]) ++
  run 188 (map imm0
    [ I_I32x4ExtmulLowI16x8S; I_I32x4ExtmulHighI16x8S; I_I32x4ExtmulLowI16x8U; I_I32x4ExtmulHighI16x8U;
      (* 192 *) I_I64x2Abs; I_I64x2Neg ]) ++
  run 195 (map imm0 [ I_I64x2AllTrue; I_I64x2Bitmask ]) ++
  run 199 (map imm0
    [ I_I64x2ExtendLowI32x4S; I_I64x2ExtendHighI32x4S; I_I64x2ExtendLowI32x4U; I_I64x2ExtendHighI32x4U;
      I_I64x2Shl; I_I64x2ShrS; I_I64x2ShrU; I_I64x2Add ]) ++
  run 209 (map imm0 [ I_I64x2Sub ]) ++
  run 213 (map imm0
    [ I_I64x2Mul; I_I64x2Eq; I_I64x2Ne; I_I64x2LtS; I_I64x2GtS; I_I64x2LeS; I_I64x2GeS;
      (* 220 *)
      I_I64x2ExtmulLowI32x4S; I_I64x2ExtmulHighI32x4S; I_I64x2ExtmulLowI32x4U; I_I64x2ExtmulHighI32x4U;
      (* 224 *) I_F32x4Abs; I_F32x4Neg ]) ++
  run 227 (map imm0
    [ I_F32x4Sqrt; I_F32x4Add; I_F32x4Sub; I_F32x4Mul; I_F32x4Div; I_F32x4Min; I_F32x4Max; I_F32x4PMin; I_F32x4PMax;
      (* 236 *) I_F64x2Abs; I_F64x2Neg ]) ++
  run 239 (map imm0
    [ I_F64x2Sqrt; I_F64x2Add; I_F64x2Sub; I_F64x2Mul; I_F64x2Div; I_F64x2Min; I_F64x2Max; I_F64x2PMin; I_F64x2PMax;
      (* 248 *) I_I32x4TruncSatF32x4S; I_I32x4TruncSatF32x4U; I_F32x4ConvertI32x4S; I_F32x4ConvertI32x4U;
      (* 252 *) I_I32x4TruncSatF64x2SZero; I_I32x4TruncSatF64x2UZero; I_F64x2ConvertLowI32x4S; I_F64x2ConvertLowI32x4U;
      (* 256 *) I_I8x16RelaxedSwizzle;
      I_I32x4RelaxedTruncF32x4S; I_I32x4RelaxedTruncF32x4U; I_I32x4RelaxedTruncF64x2SZero; I_I32x4RelaxedTruncF64x2UZero;
      (* 261 *) I_F32x4RelaxedMAdd; I_F32x4RelaxedNMAdd; I_F64x2RelaxedMAdd; I_F64x2RelaxedNMAdd;
      (* 265 *) I_I8x16RelaxedLaneSelect; I_I16x8RelaxedLaneSelect; I_I32x4RelaxedLaneSelect; I_I64x2RelaxedLaneSelect;
      (* 269 *) I_F32x4RelaxedMin; I_F32x4RelaxedMax; I_F64x2RelaxedMin; I_F64x2RelaxedMax;
      (* 273 *) I_I16x8RelaxedQ15MulrS; I_I16x8RelaxedDotSI8x16; I_I32x4RelaxedDotAddSI16x8 ]).

(** instructions and instruction sequences *)
Inductive Binstr : lang instr :=
| BI_op b X i bs : In (val b, X) ops -> X i bs -> Binstr i (b :: bs)
| BI_fb n X i bs1 bs2 : Bu32 n bs1 -> In (n, X) ops_fb -> X i bs2 -> Binstr i (xfb :: bs1 ++ bs2)
| BI_fc n X i bs1 bs2 : Bu32 n bs1 -> In (n, X) ops_fc -> X i bs2 -> Binstr i (xfc :: bs1 ++ bs2)
| BI_fd n X i bs1 bs2 : Bu32 n bs1 -> In (n, X) ops_fd -> X i bs2 -> Binstr i (xfd :: bs1 ++ bs2)
| BI_block bt is bs1 bs2 : Bblocktype bt bs1 -> Binstrs is bs2 ->
    Binstr (I_Block bt is) (x02 :: bs1 ++ bs2 ++ [x0b])
| BI_loop bt is bs1 bs2 : Bblocktype bt bs1 -> Binstrs is bs2 ->
    Binstr (I_Loop bt is) (x03 :: bs1 ++ bs2 ++ [x0b])
| BI_if bt is bs1 bs2 : Bblocktype bt bs1 -> Binstrs is bs2 ->
    Binstr (I_If bt is None) (x04 :: bs1 ++ bs2 ++ [x0b])
| BI_if_else bt is1 is2 bs1 bs2 bs3 : Bblocktype bt bs1 -> Binstrs is1 bs2 -> Binstrs is2 bs3 ->
    Binstr (I_If bt is1 (Some is2)) (x04 :: bs1 ++ bs2 ++ [x05] ++ bs3 ++ [x0b])
| BI_try_table bt cs is bs1 bs2 bs3 : Bblocktype bt bs1 -> Blist Bcatch cs bs2 -> Binstrs is bs3 ->
    Binstr (I_TryTable bt cs is) (x1f :: bs1 ++ bs2 ++ bs3 ++ [x0b])
with Binstrs : lang (list instr) :=
| BIs_nil : Binstrs [] []
| BIs_cons i is bs1 bs2 : Binstr i bs1 -> Binstrs is bs2 -> Binstrs (i :: is) (bs1 ++ bs2).
Scheme Binstr_mut := Minimality for Binstr Sort Prop
  with Binstrs_mut := Minimality for Binstrs Sort Prop.
Combined Scheme Binstr_Binstrs_ind from Binstr_mut, Binstrs_mut.

(** 5.4.9 expressions *)
Inductive Bexpr : lang Expr :=
| Bexpr_intro is bs : Binstrs is bs -> Bexpr is (bs ++ [x0b]).
