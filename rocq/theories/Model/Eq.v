(** [==] on modules: the [PartialEq] implementations that [#[derive(PartialEq)]]
    generates for the public types of src/core (the derive attribute is on every
    one of them), on top of std's implementations for integers, floats, [Vec],
    [Option], [String] and arrays.

    A derived [eq] on a struct compares the fields; on an enum it compares the
    discriminants, then the fields of the common variant.  [Vec], slices and
    arrays: the lengths, then the elements.  f32 and f64: IEEE 754 comparison, so
    that a NaN differs from everything and the two zeros are equal. *)
From Verif Require Import Model.Prelude Model.Ast.
From Coq Require Import Bool Strings.Byte.

(** core::cmp: [Vec<T>], [[T]], [[T; N]], [String] *)
Definition vec_eq {A} (eq : A -> A -> bool) : list A -> list A -> bool :=
  fix go l l' := match l, l' with
                 | [], [] => true
                 | a :: l, a' :: l' => eq a a' && go l l'
                 | _, _ => false
                 end.
(** core::option *)
Definition option_eq {A} (eq : A -> A -> bool) (o o' : option A) : bool :=
  match o, o' with
  | None, None => true
  | Some a, Some a' => eq a a'
  | _, _ => false
  end.
(** core: == on u8 *)
Definition byte_eq (b b' : byte) : bool := (Byte.to_N b =? Byte.to_N b')%N.
(** core: == on [u8] *)
Definition bytes_eq : list byte -> list byte -> bool := vec_eq byte_eq.

(** f32, f64: a binary float with [m] bits of fraction and [e] bits of exponent,
    given by its bit pattern (sign, exponent, fraction) *)
(** core: == on floats *)
Definition fraction (m : N) (b : N) : N := (b mod 2 ^ m)%N.
(** core: == on floats *)
Definition exponent (m e : N) (b : N) : N := (b / 2 ^ m mod 2 ^ e)%N.
(** core: == on floats *)
Definition is_nan (m e b : N) : bool := (exponent m e b =? 2 ^ e - 1)%N && negb (fraction m b =? 0)%N.
(** core: == on floats *)
Definition is_zero (m e b : N) : bool := (exponent m e b =? 0)%N && (fraction m b =? 0)%N.
(** core: == on floats *)
Definition float_eq (m e : N) (a b : N) : bool :=
  negb (is_nan m e a) && negb (is_nan m e b) && ((a =? b)%N || (is_zero m e a && is_zero m e b)).
(** core: == on f32 and f64 *)
Definition f32_eq : f32 -> f32 -> bool := float_eq 23 8.
Definition f64_eq : f64 -> f64 -> bool := float_eq 52 11.

(** src/core/types/numtype.rs:16 *)
Definition numtype_eq (t t' : NumType) : bool :=
  match t, t' with Int32, Int32 | Int64, Int64 | Float32, Float32 | Float64, Float64 => true | _, _ => false end.
(** src/core/types/vectype.rs:15 *)
Definition vectype_eq (t t' : VecType) : bool := match t, t' with V128, V128 => true end.
(** src/core/types/heaptype.rs:51 *)
Definition absheaptype_eq (t t' : AbsHeapType) : bool :=
  match t, t' with
  | AH_Exn, AH_Exn | AH_Array, AH_Array | AH_Struct, AH_Struct | AH_I31, AH_I31 | AH_Eq, AH_Eq | AH_Any, AH_Any
  | AH_Extern, AH_Extern | AH_Func, AH_Func | AH_None, AH_None | AH_NoExtern, AH_NoExtern | AH_NoFunc, AH_NoFunc
  | AH_NoExn, AH_NoExn => true
  | _, _ => false
  end.
(** src/core/types/heaptype.rs:45 *)
Definition heaptype_eq (t t' : HeapType) : bool :=
  match t, t' with Ht a, Ht a' => absheaptype_eq a a' | HtIdx x, HtIdx x' => (x =? x')%N | _, _ => false end.
(** src/core/types/reftype.rs:10 *)
Definition reftype_eq (t t' : RefType) : bool := Bool.eqb (nullable t) (nullable t') && heaptype_eq (ht t) (ht t').
(** src/core/types/valtype.rs:12 *)
Definition valtype_eq (t t' : ValType) : bool :=
  match t, t' with
  | VT_Num a, VT_Num a' => numtype_eq a a'
  | VT_Vec a, VT_Vec a' => vectype_eq a a'
  | VT_Ref a, VT_Ref a' => reftype_eq a a'
  | _, _ => false
  end.
(** src/core/types/globaltype.rs:12, 9 *)
Definition mut_eq (m m' : Mut) : bool := match m, m' with Const, Const | Var, Var => true | _, _ => false end.
Definition globaltype_eq (t t' : GlobalType) : bool := mut_eq (gt_mut t) (gt_mut t') && valtype_eq (gt_type t) (gt_type t').
(** src/core/types/comptype.rs:31, 25, 22, 10 *)
Definition packtype_eq (t t' : PackType) : bool := match t, t' with PT_I8, PT_I8 | PT_I16, PT_I16 => true | _, _ => false end.
Definition storagetype_eq (t t' : StorageType) : bool :=
  match t, t' with ST_Val a, ST_Val a' => valtype_eq a a' | ST_Pack a, ST_Pack a' => packtype_eq a a' | _, _ => false end.
Definition fieldtype_eq (t t' : FieldType) : bool := mut_eq (ft_mut t) (ft_mut t') && storagetype_eq (ft_type t) (ft_type t').
Definition comptype_eq (t t' : CompType) : bool :=
  match t, t' with
  | CT_Struct fs, CT_Struct fs' => vec_eq fieldtype_eq fs fs'
  | CT_Array f, CT_Array f' => fieldtype_eq f f'
  | CT_Func ps rs, CT_Func ps' rs' => vec_eq valtype_eq ps ps' && vec_eq valtype_eq rs rs'
  | _, _ => false
  end.
(** src/core/types/rectype.rs:14, 11 *)
Definition subtype_eq (t t' : SubType) : bool :=
  Bool.eqb (is_final t) (is_final t') && vec_eq N.eqb (supertypes t) (supertypes t') && comptype_eq (comptype t) (comptype t').
Definition rectype_eq : RecType -> RecType -> bool := vec_eq subtype_eq.
(** src/core/types/addrtype.rs:6, limits.rs:9, memtype.rs:12, tabletype.rs:11, tagtype.rs:10 *)
Definition addrtype_eq (t t' : AddrType) : bool := match t, t' with AT_I32, AT_I32 | AT_I64, AT_I64 => true | _, _ => false end.
Definition limits_eq (l l' : Limits) : bool :=
  addrtype_eq (address_type l) (address_type l') && (lim_min l =? lim_min l')%N && option_eq N.eqb (lim_max l) (lim_max l').
Definition memtype_eq (t t' : MemType) : bool := limits_eq (mt_limits t) (mt_limits t').
Definition tabletype_eq (t t' : TableType) : bool := reftype_eq (tt_reftype t) (tt_reftype t') && limits_eq (tt_limits t) (tt_limits t').
Definition tagtype_eq (t t' : TagType) : bool := (tag_type t =? tag_type t')%N.
(** src/core/types/externtype.rs:10 *)
Definition externtype_eq (t t' : ExternType) : bool :=
  match t, t' with
  | ET_Func x, ET_Func x' => (x =? x')%N
  | ET_Table t, ET_Table t' => tabletype_eq t t'
  | ET_Mem t, ET_Mem t' => memtype_eq t t'
  | ET_Global t, ET_Global t' => globaltype_eq t t'
  | ET_Tag t, ET_Tag t' => tagtype_eq t t'
  | _, _ => false
  end.

(** src/core/instruction.rs:526, 540, 547 *)
Definition memarg_eq (m m' : Memarg) : bool :=
  (ma_mem m =? ma_mem m')%N && (ma_align m =? ma_align m')%N && (ma_offset m =? ma_offset m')%N.
Definition blocktype_eq (t t' : BlockType) : bool :=
  match t, t' with BT_Empty, BT_Empty => true | BT_T t, BT_T t' => valtype_eq t t' | BT_I x, BT_I x' => (x =? x')%N | _, _ => false end.
Definition catch_eq (c c' : Catch) : bool :=
  match c, c' with
  | C_Catch x l, C_Catch x' l' | C_CatchRef x l, C_CatchRef x' l' => (x =? x')%N && (l =? l')%N
  | C_CatchAll l, C_CatchAll l' | C_CatchAllRef l, C_CatchAllRef l' => (l =? l')%N
  | _, _ => false
  end.

(** src/core/instruction.rs:8-520: the discriminant of a variant is its position *)
Definition discriminant (i : instr) : N :=
  match i with
  | I_Unreachable => 0
  | I_Nop => 1
  | I_Block _ _ => 2
  | I_Loop _ _ => 3
  | I_If _ _ _ => 4
  | I_Br _ => 5
  | I_BrIf _ => 6
  | I_BrTable _ _ => 7
  | I_BrOnNull _ => 8
  | I_BrOnNonNull _ => 9
  | I_BrOnCast _ _ _ => 10
  | I_BrOnCastFail _ _ _ => 11
  | I_Call _ => 12
  | I_CallRef _ => 13
  | I_CallIndirect _ _ => 14
  | I_Return => 15
  | I_ReturnCall _ => 16
  | I_ReturnCallRef _ => 17
  | I_ReturnCallIndirect _ _ => 18
  | I_Throw _ => 19
  | I_ThrowRef => 20
  | I_TryTable _ _ _ => 21
  | I_RefFunc _ => 22
  | I_RefNull _ => 23
  | I_RefIsNull => 24
  | I_RefAsNonNull => 25
  | I_RefEq => 26
  | I_RefTest _ => 27
  | I_RefCast _ => 28
  | I_StructNew _ => 29
  | I_StructNewDefault _ => 30
  | I_StructGet _ _ => 31
  | I_StructGetS _ _ => 32
  | I_StructGetU _ _ => 33
  | I_StructSet _ _ => 34
  | I_ArrayNew _ => 35
  | I_ArrayNewDefault _ => 36
  | I_ArrayNewFixed _ _ => 37
  | I_ArrayNewData _ _ => 38
  | I_ArrayNewElem _ _ => 39
  | I_ArrayGet _ => 40
  | I_ArrayGetS _ => 41
  | I_ArrayGetU _ => 42
  | I_ArraySet _ => 43
  | I_ArrayLen => 44
  | I_ArrayFill _ => 45
  | I_ArrayCopy _ _ => 46
  | I_ArrayInitData _ _ => 47
  | I_ArrayInitElem _ _ => 48
  | I_AnyConvertExtern => 49
  | I_ExternConvertAny => 50
  | I_RefI31 => 51
  | I_I31GetS => 52
  | I_I31GetU => 53
  | I_Drop => 54
  | I_Select _ => 55
  | I_LocalGet _ => 56
  | I_LocalSet _ => 57
  | I_LocalTee _ => 58
  | I_GlobalGet _ => 59
  | I_GlobalSet _ => 60
  | I_TableGet _ => 61
  | I_TableSet _ => 62
  | I_TableInit _ _ => 63
  | I_ElemDrop _ => 64
  | I_TableCopy _ _ => 65
  | I_TableGrow _ => 66
  | I_TableSize _ => 67
  | I_TableFill _ => 68
  | I_I32Load _ => 69
  | I_I64Load _ => 70
  | I_F32Load _ => 71
  | I_F64Load _ => 72
  | I_I32Load8s _ => 73
  | I_I32Load8u _ => 74
  | I_I32Load16s _ => 75
  | I_I32Load16u _ => 76
  | I_I64Load8s _ => 77
  | I_I64Load8u _ => 78
  | I_I64Load16s _ => 79
  | I_I64Load16u _ => 80
  | I_I64Load32s _ => 81
  | I_I64Load32u _ => 82
  | I_I32Store _ => 83
  | I_I64Store _ => 84
  | I_F32Store _ => 85
  | I_F64Store _ => 86
  | I_I32Store8 _ => 87
  | I_I32Store16 _ => 88
  | I_I64Store8 _ => 89
  | I_I64Store16 _ => 90
  | I_I64Store32 _ => 91
  | I_MemorySize _ => 92
  | I_MemoryGrow _ => 93
  | I_MemoryInit _ _ => 94
  | I_DataDrop _ => 95
  | I_MemoryCopy _ _ => 96
  | I_MemoryFill _ => 97
  | I_I32Const _ => 98
  | I_I64Const _ => 99
  | I_F32Const _ => 100
  | I_F64Const _ => 101
  | I_I32Eqz => 102
  | I_I32Eq => 103
  | I_I32Ne => 104
  | I_I32LtS => 105
  | I_I32LtU => 106
  | I_I32GtS => 107
  | I_I32GtU => 108
  | I_I32LeS => 109
  | I_I32LeU => 110
  | I_I32GeS => 111
  | I_I32GeU => 112
  | I_I64Eqz => 113
  | I_I64Eq => 114
  | I_I64Ne => 115
  | I_I64LtS => 116
  | I_I64LtU => 117
  | I_I64GtS => 118
  | I_I64GtU => 119
  | I_I64LeS => 120
  | I_I64LeU => 121
  | I_I64GeS => 122
  | I_I64GeU => 123
  | I_F32Eq => 124
  | I_F32Ne => 125
  | I_F32Lt => 126
  | I_F32Gt => 127
  | I_F32Le => 128
  | I_F32Ge => 129
  | I_F64Eq => 130
  | I_F64Ne => 131
  | I_F64Lt => 132
  | I_F64Gt => 133
  | I_F64Le => 134
  | I_F64Ge => 135
  | I_I32Clz => 136
  | I_I32Ctz => 137
  | I_I32Popcnt => 138
  | I_I32Add => 139
  | I_I32Sub => 140
  | I_I32Mul => 141
  | I_I32DivS => 142
  | I_I32DivU => 143
  | I_I32RemS => 144
  | I_I32RemU => 145
  | I_I32And => 146
  | I_I32Or => 147
  | I_I32Xor => 148
  | I_I32Shl => 149
  | I_I32ShrS => 150
  | I_I32ShrU => 151
  | I_I32Rotl => 152
  | I_I32Rotr => 153
  | I_I64Clz => 154
  | I_I64Ctz => 155
  | I_I64Popcnt => 156
  | I_I64Add => 157
  | I_I64Sub => 158
  | I_I64Mul => 159
  | I_I64DivS => 160
  | I_I64DivU => 161
  | I_I64RemS => 162
  | I_I64RemU => 163
  | I_I64And => 164
  | I_I64Or => 165
  | I_I64Xor => 166
  | I_I64Shl => 167
  | I_I64ShrS => 168
  | I_I64ShrU => 169
  | I_I64Rotl => 170
  | I_I64Rotr => 171
  | I_F32Abs => 172
  | I_F32Neg => 173
  | I_F32Ceil => 174
  | I_F32Floor => 175
  | I_F32Trunc => 176
  | I_F32Nearest => 177
  | I_F32Sqrt => 178
  | I_F32Add => 179
  | I_F32Sub => 180
  | I_F32Mul => 181
  | I_F32Div => 182
  | I_F32Min => 183
  | I_F32Max => 184
  | I_F32Copysign => 185
  | I_F64Abs => 186
  | I_F64Neg => 187
  | I_F64Ceil => 188
  | I_F64Floor => 189
  | I_F64Trunc => 190
  | I_F64Nearest => 191
  | I_F64Sqrt => 192
  | I_F64Add => 193
  | I_F64Sub => 194
  | I_F64Mul => 195
  | I_F64Div => 196
  | I_F64Min => 197
  | I_F64Max => 198
  | I_F64Copysign => 199
  | I_I32WrapI64 => 200
  | I_I32TruncF32S => 201
  | I_I32TruncF32U => 202
  | I_I32TruncF64S => 203
  | I_I32TruncF64U => 204
  | I_I64ExtendI32S => 205
  | I_I64ExtendI32U => 206
  | I_I64TruncF32S => 207
  | I_I64TruncF32U => 208
  | I_I64TruncF64S => 209
  | I_I64TruncF64U => 210
  | I_F32ConvertI32S => 211
  | I_F32ConvertI32U => 212
  | I_F32ConvertI64S => 213
  | I_F32ConvertI64U => 214
  | I_F32DemoteF64 => 215
  | I_F64ConvertI32S => 216
  | I_F64ConvertI32U => 217
  | I_F64ConvertI64S => 218
  | I_F64ConvertI64U => 219
  | I_F64PromoteF32 => 220
  | I_I32ReinterpretF32 => 221
  | I_I64ReinterpretF64 => 222
  | I_F32ReinterpretI32 => 223
  | I_F64ReinterpretI64 => 224
  | I_I32Extend8S => 225
  | I_I32Extend16S => 226
  | I_I64Extend8S => 227
  | I_I64Extend16S => 228
  | I_I64Extend32S => 229
  | I_I32TruncSatF32S => 230
  | I_I32TruncSatF32U => 231
  | I_I32TruncSatF64S => 232
  | I_I32TruncSatF64U => 233
  | I_I64TruncSatF32S => 234
  | I_I64TruncSatF32U => 235
  | I_I64TruncSatF64S => 236
  | I_I64TruncSatF64U => 237
  | I_V128Load _ => 238
  | I_V128Load8x8S _ => 239
  | I_V128Load8x8U _ => 240
  | I_V128Load16x4S _ => 241
  | I_V128Load16x4U _ => 242
  | I_V128Load32x2S _ => 243
  | I_V128Load32x2U _ => 244
  | I_V128Load8Splat _ => 245
  | I_V128Load16Splat _ => 246
  | I_V128Load32Splat _ => 247
  | I_V128Load64Splat _ => 248
  | I_V128Load32Zero _ => 249
  | I_V128Load64Zero _ => 250
  | I_V128Store _ => 251
  | I_V128Load8Lane _ _ => 252
  | I_V128Load16Lane _ _ => 253
  | I_V128Load32Lane _ _ => 254
  | I_V128Load64Lane _ _ => 255
  | I_V128Store8Lane _ _ => 256
  | I_V128Store16Lane _ _ => 257
  | I_V128Store32Lane _ _ => 258
  | I_V128Store64Lane _ _ => 259
  | I_V128Const _ => 260
  | I_I8x16Shuffle _ => 261
  | I_I8x16ExtractLaneS _ => 262
  | I_I8x16ExtractLaneU _ => 263
  | I_I8x16ReplaceLane _ => 264
  | I_I16x8ExtractLaneS _ => 265
  | I_I16x8ExtractLaneU _ => 266
  | I_I16x8ReplaceLane _ => 267
  | I_I32x4ExtractLane _ => 268
  | I_I32x4ReplaceLane _ => 269
  | I_I64x2ExtractLane _ => 270
  | I_I64x2ReplaceLane _ => 271
  | I_F32x4ExtractLane _ => 272
  | I_F32x4ReplaceLane _ => 273
  | I_F64x2ExtractLane _ => 274
  | I_F64x2ReplaceLane _ => 275
  | I_I8x16Swizzle => 276
  | I_I8x16RelaxedSwizzle => 277
  | I_I8x16Splat => 278
  | I_I16x8Splat => 279
  | I_I32x4Splat => 280
  | I_I64x2Splat => 281
  | I_F32x4Splat => 282
  | I_F64x2Splat => 283
  | I_I8x16Eq => 284
  | I_I8x16Ne => 285
  | I_I8x16LtS => 286
  | I_I8x16LtU => 287
  | I_I8x16GtS => 288
  | I_I8x16GtU => 289
  | I_I8x16LeS => 290
  | I_I8x16LeU => 291
  | I_I8x16GeS => 292
  | I_I8x16GeU => 293
  | I_I16x8Eq => 294
  | I_I16x8Ne => 295
  | I_I16x8LtS => 296
  | I_I16x8LtU => 297
  | I_I16x8GtS => 298
  | I_I16x8GtU => 299
  | I_I16x8LeS => 300
  | I_I16x8LeU => 301
  | I_I16x8GeS => 302
  | I_I16x8GeU => 303
  | I_I32x4Eq => 304
  | I_I32x4Ne => 305
  | I_I32x4LtS => 306
  | I_I32x4LtU => 307
  | I_I32x4GtS => 308
  | I_I32x4GtU => 309
  | I_I32x4LeS => 310
  | I_I32x4LeU => 311
  | I_I32x4GeS => 312
  | I_I32x4GeU => 313
  | I_I64x2Eq => 314
  | I_I64x2Ne => 315
  | I_I64x2LtS => 316
  | I_I64x2GtS => 317
  | I_I64x2LeS => 318
  | I_I64x2GeS => 319
  | I_F32x4Eq => 320
  | I_F32x4Ne => 321
  | I_F32x4Lt => 322
  | I_F32x4Gt => 323
  | I_F32x4Le => 324
  | I_F32x4Ge => 325
  | I_F64x2Eq => 326
  | I_F64x2Ne => 327
  | I_F64x2Lt => 328
  | I_F64x2Gt => 329
  | I_F64x2Le => 330
  | I_F64x2Ge => 331
  | I_V128Not => 332
  | I_V128And => 333
  | I_V128AndNot => 334
  | I_V128Or => 335
  | I_V128Xor => 336
  | I_V128Bitselect => 337
  | I_I8x16RelaxedLaneSelect => 338
  | I_I16x8RelaxedLaneSelect => 339
  | I_I32x4RelaxedLaneSelect => 340
  | I_I64x2RelaxedLaneSelect => 341
  | I_V128AnyTrue => 342
  | I_I8x16Abs => 343
  | I_I8x16Neg => 344
  | I_I8x16Popcnt => 345
  | I_I8x16AllTrue => 346
  | I_I8x16Bitmask => 347
  | I_I8x16NarrowI16x8S => 348
  | I_I8x16NarrowI16x8U => 349
  | I_I8x16Shl => 350
  | I_I8x16ShrS => 351
  | I_I8x16ShrU => 352
  | I_I8x16Add => 353
  | I_I8x16AddSatS => 354
  | I_I8x16AddSatU => 355
  | I_I8x16Sub => 356
  | I_I8x16SubSatS => 357
  | I_I8x16SubSatU => 358
  | I_I8x16MinS => 359
  | I_I8x16MinU => 360
  | I_I8x16MaxS => 361
  | I_I8x16MaxU => 362
  | I_I8x16AvgrU => 363
  | I_I16x8ExtaddPairwiseI8x16S => 364
  | I_I16x8ExtaddPairwiseI8x16U => 365
  | I_I16x8Abs => 366
  | I_I16x8Neg => 367
  | I_I16x8Q15MulrSatS => 368
  | I_I16x8AllTrue => 369
  | I_I16x8Bitmask => 370
  | I_I16x8NarrowI32x4S => 371
  | I_I16x8NarrowI32x4U => 372
  | I_I16x8ExtendLowI8x16S => 373
  | I_I16x8ExtendHighI8x16S => 374
  | I_I16x8ExtendLowI8x16U => 375
  | I_I16x8ExtendHighI8x16U => 376
  | I_I16x8Shl => 377
  | I_I16x8ShrS => 378
  | I_I16x8ShrU => 379
  | I_I16x8Add => 380
  | I_I16x8AddSatS => 381
  | I_I16x8AddSatU => 382
  | I_I16x8Sub => 383
  | I_I16x8SubSatS => 384
  | I_I16x8SubSatU => 385
  | I_I16x8Mul => 386
  | I_I16x8MinS => 387
  | I_I16x8MinU => 388
  | I_I16x8MaxS => 389
  | I_I16x8MaxU => 390
  | I_I16x8AvgrU => 391
  | I_I16x8ExtmulLowI8x16S => 392
  | I_I16x8ExtmulHighI8x16S => 393
  | I_I16x8ExtmulLowI8x16U => 394
  | I_I16x8ExtmulHighI8x16U => 395
  | I_I16x8RelaxedQ15MulrS => 396
  | I_I16x8RelaxedDotSI8x16 => 397
  | I_I32x4RelaxedDotAddSI16x8 => 398
  | I_I32x4ExtaddPairwiseI16x8S => 399
  | I_I32x4ExtaddPairwiseI16x8U => 400
  | I_I32x4Abs => 401
  | I_I32x4Neg => 402
  | I_I32x4AllTrue => 403
  | I_I32x4Bitmask => 404
  | I_I32x4ExtendLowI16x8S => 405
  | I_I32x4ExtendHighI16x8S => 406
  | I_I32x4ExtendLowI16x8U => 407
  | I_I32x4ExtendHighI16x8U => 408
  | I_I32x4Shl => 409
  | I_I32x4ShrS => 410
  | I_I32x4ShrU => 411
  | I_I32x4Add => 412
  | I_I32x4Sub => 413
  | I_I32x4Mul => 414
  | I_I32x4MinS => 415
  | I_I32x4MinU => 416
  | I_I32x4MaxS => 417
  | I_I32x4MaxU => 418
  | I_I32x4DotI16x8S => 419
  | I_I32x4ExtmulLowI16x8S => 420
  | I_I32x4ExtmulHighI16x8S => 421
  | I_I32x4ExtmulLowI16x8U => 422
  | I_I32x4ExtmulHighI16x8U => 423
  | I_I64x2Abs => 424
  | I_I64x2Neg => 425
  | I_I64x2AllTrue => 426
  | I_I64x2Bitmask => 427
  | I_I64x2ExtendLowI32x4S => 428
  | I_I64x2ExtendHighI32x4S => 429
  | I_I64x2ExtendLowI32x4U => 430
  | I_I64x2ExtendHighI32x4U => 431
  | I_I64x2Shl => 432
  | I_I64x2ShrS => 433
  | I_I64x2ShrU => 434
  | I_I64x2Add => 435
  | I_I64x2Sub => 436
  | I_I64x2Mul => 437
  | I_I64x2ExtmulLowI32x4S => 438
  | I_I64x2ExtmulHighI32x4S => 439
  | I_I64x2ExtmulLowI32x4U => 440
  | I_I64x2ExtmulHighI32x4U => 441
  | I_F32x4Ceil => 442
  | I_F32x4Floor => 443
  | I_F32x4Trunc => 444
  | I_F32x4Nearest => 445
  | I_F32x4Abs => 446
  | I_F32x4Neg => 447
  | I_F32x4Sqrt => 448
  | I_F32x4Add => 449
  | I_F32x4Sub => 450
  | I_F32x4Mul => 451
  | I_F32x4Div => 452
  | I_F32x4Min => 453
  | I_F32x4Max => 454
  | I_F32x4PMin => 455
  | I_F32x4PMax => 456
  | I_F32x4RelaxedMin => 457
  | I_F32x4RelaxedMax => 458
  | I_F32x4RelaxedMAdd => 459
  | I_F32x4RelaxedNMAdd => 460
  | I_F64x2Ceil => 461
  | I_F64x2Floor => 462
  | I_F64x2Trunc => 463
  | I_F64x2Nearest => 464
  | I_F64x2Abs => 465
  | I_F64x2Neg => 466
  | I_F64x2Sqrt => 467
  | I_F64x2Add => 468
  | I_F64x2Sub => 469
  | I_F64x2Mul => 470
  | I_F64x2Div => 471
  | I_F64x2Min => 472
  | I_F64x2Max => 473
  | I_F64x2PMin => 474
  | I_F64x2PMax => 475
  | I_F64x2RelaxedMin => 476
  | I_F64x2RelaxedMax => 477
  | I_F64x2RelaxedMAdd => 478
  | I_F64x2RelaxedNMAdd => 479
  | I_I32x4TruncSatF32x4S => 480
  | I_I32x4TruncSatF32x4U => 481
  | I_F32x4ConvertI32x4S => 482
  | I_F32x4ConvertI32x4U => 483
  | I_I32x4TruncSatF64x2SZero => 484
  | I_I32x4TruncSatF64x2UZero => 485
  | I_I32x4RelaxedTruncF32x4S => 486
  | I_I32x4RelaxedTruncF32x4U => 487
  | I_I32x4RelaxedTruncF64x2SZero => 488
  | I_I32x4RelaxedTruncF64x2UZero => 489
  | I_F64x2ConvertLowI32x4S => 490
  | I_F64x2ConvertLowI32x4U => 491
  | I_F32x4DemoteF64x2Zero => 492
  | I_F64x2PromoteLowF32x4 => 493
  end%N.
(** the fields of a variant, in order, except in block, loop, if and try_table.
    Two lists of fields of the same variant have the same kinds. *)
(** src/core/instruction.rs, the types of the fields of Instruction *)
Inductive field :=
| P_u32 (n : N) | P_int (z : Z) | P_f32 (b : N) | P_f64 (b : N) | P_byte (b : byte) | P_bytes (l : list byte)
| P_indices (l : list N) | P_types (t : option (list ValType)) | P_reftype (t : RefType) | P_heaptype (t : HeapType)
| P_memarg (m : Memarg).
(** derive(PartialEq), src/core/instruction.rs *)
Definition field_eq (f f' : field) : bool :=
  match f, f' with
  | P_u32 n, P_u32 n' => (n =? n')%N
  | P_int z, P_int z' => (z =? z')%Z
  | P_f32 b, P_f32 b' => f32_eq b b'
  | P_f64 b, P_f64 b' => f64_eq b b'
  | P_byte b, P_byte b' => byte_eq b b'
  | P_bytes l, P_bytes l' => bytes_eq l l'
  | P_indices l, P_indices l' => vec_eq N.eqb l l'
  | P_types t, P_types t' => option_eq (vec_eq valtype_eq) t t'
  | P_reftype t, P_reftype t' => reftype_eq t t'
  | P_heaptype t, P_heaptype t' => heaptype_eq t t'
  | P_memarg m, P_memarg m' => memarg_eq m m'
  | _, _ => false
  end.
(** src/core/instruction.rs, the fields of Instruction *)
Definition fields (i : instr) : list field :=
  match i with
  | I_Br x0 => [P_u32 x0]
  | I_BrIf x0 => [P_u32 x0]
  | I_BrTable x0 x1 => [P_indices x0; P_u32 x1]
  | I_BrOnNull x0 => [P_u32 x0]
  | I_BrOnNonNull x0 => [P_u32 x0]
  | I_BrOnCast x0 x1 x2 => [P_u32 x0; P_reftype x1; P_reftype x2]
  | I_BrOnCastFail x0 x1 x2 => [P_u32 x0; P_reftype x1; P_reftype x2]
  | I_Call x0 => [P_u32 x0]
  | I_CallRef x0 => [P_u32 x0]
  | I_CallIndirect x0 x1 => [P_u32 x0; P_u32 x1]
  | I_ReturnCall x0 => [P_u32 x0]
  | I_ReturnCallRef x0 => [P_u32 x0]
  | I_ReturnCallIndirect x0 x1 => [P_u32 x0; P_u32 x1]
  | I_Throw x0 => [P_u32 x0]
  | I_RefFunc x0 => [P_u32 x0]
  | I_RefNull x0 => [P_heaptype x0]
  | I_RefTest x0 => [P_reftype x0]
  | I_RefCast x0 => [P_reftype x0]
  | I_StructNew x0 => [P_u32 x0]
  | I_StructNewDefault x0 => [P_u32 x0]
  | I_StructGet x0 x1 => [P_u32 x0; P_u32 x1]
  | I_StructGetS x0 x1 => [P_u32 x0; P_u32 x1]
  | I_StructGetU x0 x1 => [P_u32 x0; P_u32 x1]
  | I_StructSet x0 x1 => [P_u32 x0; P_u32 x1]
  | I_ArrayNew x0 => [P_u32 x0]
  | I_ArrayNewDefault x0 => [P_u32 x0]
  | I_ArrayNewFixed x0 x1 => [P_u32 x0; P_u32 x1]
  | I_ArrayNewData x0 x1 => [P_u32 x0; P_u32 x1]
  | I_ArrayNewElem x0 x1 => [P_u32 x0; P_u32 x1]
  | I_ArrayGet x0 => [P_u32 x0]
  | I_ArrayGetS x0 => [P_u32 x0]
  | I_ArrayGetU x0 => [P_u32 x0]
  | I_ArraySet x0 => [P_u32 x0]
  | I_ArrayFill x0 => [P_u32 x0]
  | I_ArrayCopy x0 x1 => [P_u32 x0; P_u32 x1]
  | I_ArrayInitData x0 x1 => [P_u32 x0; P_u32 x1]
  | I_ArrayInitElem x0 x1 => [P_u32 x0; P_u32 x1]
  | I_Select x0 => [P_types x0]
  | I_LocalGet x0 => [P_u32 x0]
  | I_LocalSet x0 => [P_u32 x0]
  | I_LocalTee x0 => [P_u32 x0]
  | I_GlobalGet x0 => [P_u32 x0]
  | I_GlobalSet x0 => [P_u32 x0]
  | I_TableGet x0 => [P_u32 x0]
  | I_TableSet x0 => [P_u32 x0]
  | I_TableInit x0 x1 => [P_u32 x0; P_u32 x1]
  | I_ElemDrop x0 => [P_u32 x0]
  | I_TableCopy x0 x1 => [P_u32 x0; P_u32 x1]
  | I_TableGrow x0 => [P_u32 x0]
  | I_TableSize x0 => [P_u32 x0]
  | I_TableFill x0 => [P_u32 x0]
  | I_I32Load x0 => [P_memarg x0]
  | I_I64Load x0 => [P_memarg x0]
  | I_F32Load x0 => [P_memarg x0]
  | I_F64Load x0 => [P_memarg x0]
  | I_I32Load8s x0 => [P_memarg x0]
  | I_I32Load8u x0 => [P_memarg x0]
  | I_I32Load16s x0 => [P_memarg x0]
  | I_I32Load16u x0 => [P_memarg x0]
  | I_I64Load8s x0 => [P_memarg x0]
  | I_I64Load8u x0 => [P_memarg x0]
  | I_I64Load16s x0 => [P_memarg x0]
  | I_I64Load16u x0 => [P_memarg x0]
  | I_I64Load32s x0 => [P_memarg x0]
  | I_I64Load32u x0 => [P_memarg x0]
  | I_I32Store x0 => [P_memarg x0]
  | I_I64Store x0 => [P_memarg x0]
  | I_F32Store x0 => [P_memarg x0]
  | I_F64Store x0 => [P_memarg x0]
  | I_I32Store8 x0 => [P_memarg x0]
  | I_I32Store16 x0 => [P_memarg x0]
  | I_I64Store8 x0 => [P_memarg x0]
  | I_I64Store16 x0 => [P_memarg x0]
  | I_I64Store32 x0 => [P_memarg x0]
  | I_MemorySize x0 => [P_u32 x0]
  | I_MemoryGrow x0 => [P_u32 x0]
  | I_MemoryInit x0 x1 => [P_u32 x0; P_u32 x1]
  | I_DataDrop x0 => [P_u32 x0]
  | I_MemoryCopy x0 x1 => [P_u32 x0; P_u32 x1]
  | I_MemoryFill x0 => [P_u32 x0]
  | I_I32Const x0 => [P_int x0]
  | I_I64Const x0 => [P_int x0]
  | I_F32Const x0 => [P_f32 x0]
  | I_F64Const x0 => [P_f64 x0]
  | I_V128Load x0 => [P_memarg x0]
  | I_V128Load8x8S x0 => [P_memarg x0]
  | I_V128Load8x8U x0 => [P_memarg x0]
  | I_V128Load16x4S x0 => [P_memarg x0]
  | I_V128Load16x4U x0 => [P_memarg x0]
  | I_V128Load32x2S x0 => [P_memarg x0]
  | I_V128Load32x2U x0 => [P_memarg x0]
  | I_V128Load8Splat x0 => [P_memarg x0]
  | I_V128Load16Splat x0 => [P_memarg x0]
  | I_V128Load32Splat x0 => [P_memarg x0]
  | I_V128Load64Splat x0 => [P_memarg x0]
  | I_V128Load32Zero x0 => [P_memarg x0]
  | I_V128Load64Zero x0 => [P_memarg x0]
  | I_V128Store x0 => [P_memarg x0]
  | I_V128Load8Lane x0 x1 => [P_memarg x0; P_byte x1]
  | I_V128Load16Lane x0 x1 => [P_memarg x0; P_byte x1]
  | I_V128Load32Lane x0 x1 => [P_memarg x0; P_byte x1]
  | I_V128Load64Lane x0 x1 => [P_memarg x0; P_byte x1]
  | I_V128Store8Lane x0 x1 => [P_memarg x0; P_byte x1]
  | I_V128Store16Lane x0 x1 => [P_memarg x0; P_byte x1]
  | I_V128Store32Lane x0 x1 => [P_memarg x0; P_byte x1]
  | I_V128Store64Lane x0 x1 => [P_memarg x0; P_byte x1]
  | I_V128Const x0 => [P_bytes x0]
  | I_I8x16Shuffle x0 => [P_bytes x0]
  | I_I8x16ExtractLaneS x0 => [P_byte x0]
  | I_I8x16ExtractLaneU x0 => [P_byte x0]
  | I_I8x16ReplaceLane x0 => [P_byte x0]
  | I_I16x8ExtractLaneS x0 => [P_byte x0]
  | I_I16x8ExtractLaneU x0 => [P_byte x0]
  | I_I16x8ReplaceLane x0 => [P_byte x0]
  | I_I32x4ExtractLane x0 => [P_byte x0]
  | I_I32x4ReplaceLane x0 => [P_byte x0]
  | I_I64x2ExtractLane x0 => [P_byte x0]
  | I_I64x2ReplaceLane x0 => [P_byte x0]
  | I_F32x4ExtractLane x0 => [P_byte x0]
  | I_F32x4ReplaceLane x0 => [P_byte x0]
  | I_F64x2ExtractLane x0 => [P_byte x0]
  | I_F64x2ReplaceLane x0 => [P_byte x0]
  | _ => []
  end.
(** src/core/instruction.rs:8 *)
Fixpoint instr_eq (i j : instr) {struct i} : bool :=
  match i with
  | I_Block t l => match j with I_Block t' l' => blocktype_eq t t' && vec_eq instr_eq l l' | _ => false end
  | I_Loop t l => match j with I_Loop t' l' => blocktype_eq t t' && vec_eq instr_eq l l' | _ => false end
  | I_If t l e =>
      match j with
      | I_If t' l' e' => blocktype_eq t t' && vec_eq instr_eq l l' && option_eq (vec_eq instr_eq) e e'
      | _ => false
      end
  | I_TryTable t c l =>
      match j with I_TryTable t' c' l' => blocktype_eq t t' && vec_eq catch_eq c c' && vec_eq instr_eq l l' | _ => false end
  | _ => (discriminant i =? discriminant j)%N && vec_eq field_eq (fields i) (fields j)
  end.
(** src/core/mod.rs:20 *)
Definition expr_eq : Expr -> Expr -> bool := vec_eq instr_eq.

(** src/core/mod.rs:34, 54, 48, 70, 96 *)
Definition import_eq (i i' : Import) : bool :=
  bytes_eq (im_module i) (im_module i') && bytes_eq (im_item i) (im_item i') && externtype_eq (im_type i) (im_type i').
Definition externidx_eq (x x' : ExternIdx) : bool :=
  match x, x' with
  | EI_Func x, EI_Func x' | EI_Global x, EI_Global x' | EI_Table x, EI_Table x' | EI_Mem x, EI_Mem x' | EI_Tag x, EI_Tag x' => (x =? x')%N
  | _, _ => false
  end.
Definition export_eq (e e' : Export) : bool := bytes_eq (ex_name e) (ex_name e') && externidx_eq (ex_idx e) (ex_idx e').
Definition func_eq (f f' : Func) : bool :=
  (f_type f =? f_type f')%N && vec_eq valtype_eq (f_locals f) (f_locals f') && expr_eq (f_body f) (f_body f').
Definition global_eq (g g' : Global) : bool := globaltype_eq (g_type g) (g_type g') && expr_eq (g_init g) (g_init g').
(** src/core/mod.rs:119, 113, 147, 140, 163 *)
Definition datamode_eq (d d' : DataMode) : bool :=
  match d, d' with DM_Passive, DM_Passive => true | DM_Active x o, DM_Active x' o' => (x =? x')%N && expr_eq o o' | _, _ => false end.
Definition data_eq (d d' : Data) : bool := bytes_eq (d_init d) (d_init d') && datamode_eq (d_mode d) (d_mode d').
Definition elemmode_eq (e e' : ElemMode) : bool :=
  match e, e' with
  | EM_Passive, EM_Passive | EM_Declare, EM_Declare => true
  | EM_Active x o, EM_Active x' o' => (x =? x')%N && expr_eq o o'
  | _, _ => false
  end.
Definition elem_eq (e e' : Elem) : bool :=
  reftype_eq (e_type e) (e_type e') && vec_eq expr_eq (e_init e) (e_init e') && elemmode_eq (e_mode e) (e_mode e').
Definition table_eq (t t' : Table) : bool := tabletype_eq (t_type t) (t_type t') && expr_eq (t_init t) (t_init t').
(** src/core/custom_section.rs:13 *)
Definition custom_eq (c c' : CustomSection) : bool := bytes_eq (cs_name c) (cs_name c') && bytes_eq (cs_contents c) (cs_contents c').
(** src/core/module.rs:172, 166 *)
Definition kind_eq (k k' : SectionKind) : bool :=
  match k, k' with
  | SK_Custom, SK_Custom | SK_Type, SK_Type | SK_Import, SK_Import | SK_Function, SK_Function | SK_Table, SK_Table
  | SK_Memory, SK_Memory | SK_Tag, SK_Tag | SK_Global, SK_Global | SK_Export, SK_Export | SK_Start, SK_Start
  | SK_Element, SK_Element | SK_DataCount, SK_DataCount | SK_Code, SK_Code | SK_Data, SK_Data => true
  | _, _ => false
  end.
Definition header_eq (h h' : SectionHeader) : bool := kind_eq (sh_kind h) (sh_kind h') && (sh_size h =? sh_size h')%N.
(** src/core/module.rs:15 *)
Definition module_eq (m m' : Module_) : bool :=
  bytes_eq (version m) (version m')
  && vec_eq kind_eq (parsed_section_kinds m) (parsed_section_kinds m')
  && vec_eq header_eq (section_headers m) (section_headers m')
  && vec_eq custom_eq (custom_sections m) (custom_sections m')
  && vec_eq rectype_eq (types m) (types m')
  && vec_eq func_eq (funcs m) (funcs m')
  && vec_eq table_eq (tables m) (tables m')
  && vec_eq memtype_eq (mems m) (mems m')
  && vec_eq global_eq (globals m) (globals m')
  && vec_eq elem_eq (elems m) (elems m')
  && option_eq N.eqb (data_count m) (data_count m')
  && vec_eq data_eq (datas m) (datas m')
  && option_eq N.eqb (start m) (start m')
  && vec_eq import_eq (imports m) (imports m')
  && vec_eq export_eq (exports m) (exports m')
  && vec_eq tagtype_eq (tags m) (tags m').
