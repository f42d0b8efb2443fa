(** src/decode/instructions.rs: [Instruction::parse] and its helpers, and
    [decode_expr] / [instruction_contains_data_index] of src/decode/helpers.rs.

    Rust's [match opcode] has pairwise disjoint arms.  Arms of the form
    [literal => Instruction::X] are collected in tables ([plain_*]) tried after
    the other arms; the remaining arms appear in [switch] below. *)
From Verif Require Import Model.Prelude Model.Io Model.Ast Model.Errors Model.Integer Model.Helpers Model.Types.
Local Open Scope N_scope.

(** src/decode/instructions.rs:1015-1019 *)
Inductive ParseResult := PR_Instr (i : instr) | PR_Else | PR_End.

(** lines 212-214, 266, 275, 325, 327-328, 527-654: one-byte opcodes without immediates *)
Definition plain_ops : list (N * instr) :=
    [ (0x00, I_Unreachable)
    ; (0x01, I_Nop)
    ; (0x1A, I_Drop)
    ; (0x0A, I_ThrowRef)
    ; (0x0F, I_Return)
    ; (0xD1, I_RefIsNull)
    ; (0xD3, I_RefEq)
    ; (0xD4, I_RefAsNonNull)
    ; (0x45, I_I32Eqz)
    ; (0x46, I_I32Eq)
    ; (0x47, I_I32Ne)
    ; (0x48, I_I32LtS)
    ; (0x49, I_I32LtU)
    ; (0x4A, I_I32GtS)
    ; (0x4B, I_I32GtU)
    ; (0x4C, I_I32LeS)
    ; (0x4D, I_I32LeU)
    ; (0x4E, I_I32GeS)
    ; (0x4F, I_I32GeU)
    ; (0x50, I_I64Eqz)
    ; (0x51, I_I64Eq)
    ; (0x52, I_I64Ne)
    ; (0x53, I_I64LtS)
    ; (0x54, I_I64LtU)
    ; (0x55, I_I64GtS)
    ; (0x56, I_I64GtU)
    ; (0x57, I_I64LeS)
    ; (0x58, I_I64LeU)
    ; (0x59, I_I64GeS)
    ; (0x5A, I_I64GeU)
    ; (0x5B, I_F32Eq)
    ; (0x5C, I_F32Ne)
    ; (0x5D, I_F32Lt)
    ; (0x5E, I_F32Gt)
    ; (0x5F, I_F32Le)
    ; (0x60, I_F32Ge)
    ; (0x61, I_F64Eq)
    ; (0x62, I_F64Ne)
    ; (0x63, I_F64Lt)
    ; (0x64, I_F64Gt)
    ; (0x65, I_F64Le)
    ; (0x66, I_F64Ge)
    ; (0x67, I_I32Clz)
    ; (0x68, I_I32Ctz)
    ; (0x69, I_I32Popcnt)
    ; (0x6A, I_I32Add)
    ; (0x6B, I_I32Sub)
    ; (0x6C, I_I32Mul)
    ; (0x6D, I_I32DivS)
    ; (0x6E, I_I32DivU)
    ; (0x6F, I_I32RemS)
    ; (0x70, I_I32RemU)
    ; (0x71, I_I32And)
    ; (0x72, I_I32Or)
    ; (0x73, I_I32Xor)
    ; (0x74, I_I32Shl)
    ; (0x75, I_I32ShrS)
    ; (0x76, I_I32ShrU)
    ; (0x77, I_I32Rotl)
    ; (0x78, I_I32Rotr)
    ; (0x79, I_I64Clz)
    ; (0x7A, I_I64Ctz)
    ; (0x7B, I_I64Popcnt)
    ; (0x7C, I_I64Add)
    ; (0x7D, I_I64Sub)
    ; (0x7E, I_I64Mul)
    ; (0x7F, I_I64DivS)
    ; (0x80, I_I64DivU)
    ; (0x81, I_I64RemS)
    ; (0x82, I_I64RemU)
    ; (0x83, I_I64And)
    ; (0x84, I_I64Or)
    ; (0x85, I_I64Xor)
    ; (0x86, I_I64Shl)
    ; (0x87, I_I64ShrS)
    ; (0x88, I_I64ShrU)
    ; (0x89, I_I64Rotl)
    ; (0x8A, I_I64Rotr)
    ; (0x8B, I_F32Abs)
    ; (0x8C, I_F32Neg)
    ; (0x8D, I_F32Ceil)
    ; (0x8E, I_F32Floor)
    ; (0x8F, I_F32Trunc)
    ; (0x90, I_F32Nearest)
    ; (0x91, I_F32Sqrt)
    ; (0x92, I_F32Add)
    ; (0x93, I_F32Sub)
    ; (0x94, I_F32Mul)
    ; (0x95, I_F32Div)
    ; (0x96, I_F32Min)
    ; (0x97, I_F32Max)
    ; (0x98, I_F32Copysign)
    ; (0x99, I_F64Abs)
    ; (0x9A, I_F64Neg)
    ; (0x9B, I_F64Ceil)
    ; (0x9C, I_F64Floor)
    ; (0x9D, I_F64Trunc)
    ; (0x9E, I_F64Nearest)
    ; (0x9F, I_F64Sqrt)
    ; (0xA0, I_F64Add)
    ; (0xA1, I_F64Sub)
    ; (0xA2, I_F64Mul)
    ; (0xA3, I_F64Div)
    ; (0xA4, I_F64Min)
    ; (0xA5, I_F64Max)
    ; (0xA6, I_F64Copysign)
    ; (0xA7, I_I32WrapI64)
    ; (0xA8, I_I32TruncF32S)
    ; (0xA9, I_I32TruncF32U)
    ; (0xAA, I_I32TruncF64S)
    ; (0xAB, I_I32TruncF64U)
    ; (0xAC, I_I64ExtendI32S)
    ; (0xAD, I_I64ExtendI32U)
    ; (0xAE, I_I64TruncF32S)
    ; (0xAF, I_I64TruncF32U)
    ; (0xB0, I_I64TruncF64S)
    ; (0xB1, I_I64TruncF64U)
    ; (0xB2, I_F32ConvertI32S)
    ; (0xB3, I_F32ConvertI32U)
    ; (0xB4, I_F32ConvertI64S)
    ; (0xB5, I_F32ConvertI64U)
    ; (0xB6, I_F32DemoteF64)
    ; (0xB7, I_F64ConvertI32S)
    ; (0xB8, I_F64ConvertI32U)
    ; (0xB9, I_F64ConvertI64S)
    ; (0xBA, I_F64ConvertI64U)
    ; (0xBB, I_F64PromoteF32)
    ; (0xBC, I_I32ReinterpretF32)
    ; (0xBD, I_I64ReinterpretF64)
    ; (0xBE, I_F32ReinterpretI32)
    ; (0xBF, I_F64ReinterpretI64)
    ; (0xC0, I_I32Extend8S)
    ; (0xC1, I_I32Extend16S)
    ; (0xC2, I_I64Extend8S)
    ; (0xC3, I_I64Extend16S)
    ; (0xC4, I_I64Extend32S) ].

(** lines 487-512: opcodes 0x28..=0x3E *)
Definition mem_ops : list (N * (Memarg -> instr)) :=
    [ (0x28, I_I32Load)
    ; (0x29, I_I64Load)
    ; (0x2A, I_F32Load)
    ; (0x2B, I_F64Load)
    ; (0x2C, I_I32Load8s)
    ; (0x2D, I_I32Load8u)
    ; (0x2E, I_I32Load16s)
    ; (0x2F, I_I32Load16u)
    ; (0x30, I_I64Load8s)
    ; (0x31, I_I64Load8u)
    ; (0x32, I_I64Load16s)
    ; (0x33, I_I64Load16u)
    ; (0x34, I_I64Load32s)
    ; (0x35, I_I64Load32u)
    ; (0x36, I_I32Store)
    ; (0x37, I_I64Store)
    ; (0x38, I_F32Store)
    ; (0x39, I_F64Store)
    ; (0x3A, I_I32Store8)
    ; (0x3B, I_I32Store16)
    ; (0x3C, I_I64Store8)
    ; (0x3D, I_I64Store16)
    ; (0x3E, I_I64Store32) ].

(** lines 394, 413-417: 0xFB-prefixed opcodes without immediates *)
Definition plain_fb_ops : list (N * instr) :=
    [ (15, I_ArrayLen)
    ; (26, I_AnyConvertExtern)
    ; (27, I_ExternConvertAny)
    ; (28, I_RefI31)
    ; (29, I_I31GetS)
    ; (30, I_I31GetU) ].

(** lines 659-666: 0xFC-prefixed opcodes without immediates *)
Definition plain_fc_ops : list (N * instr) :=
    [ (0, I_I32TruncSatF32S)
    ; (1, I_I32TruncSatF32U)
    ; (2, I_I32TruncSatF64S)
    ; (3, I_I32TruncSatF64U)
    ; (4, I_I64TruncSatF32S)
    ; (5, I_I64TruncSatF32U)
    ; (6, I_I64TruncSatF64S)
    ; (7, I_I64TruncSatF64U) ].

(** lines 716-732 *)
Definition vec_mem_ops : list (N * (Memarg -> instr)) :=
    [ (0, I_V128Load)
    ; (1, I_V128Load8x8S)
    ; (2, I_V128Load8x8U)
    ; (3, I_V128Load16x4S)
    ; (4, I_V128Load16x4U)
    ; (5, I_V128Load32x2S)
    ; (6, I_V128Load32x2U)
    ; (7, I_V128Load8Splat)
    ; (8, I_V128Load16Splat)
    ; (9, I_V128Load32Splat)
    ; (10, I_V128Load64Splat)
    ; (92, I_V128Load32Zero)
    ; (93, I_V128Load64Zero)
    ; (11, I_V128Store) ].

(** lines 737-747 *)
Definition vec_mem_lane_ops : list (N * (Memarg -> LaneIdx -> instr)) :=
    [ (84, I_V128Load8Lane)
    ; (85, I_V128Load16Lane)
    ; (86, I_V128Load32Lane)
    ; (87, I_V128Load64Lane)
    ; (88, I_V128Store8Lane)
    ; (89, I_V128Store16Lane)
    ; (90, I_V128Store32Lane)
    ; (91, I_V128Store64Lane) ].

(** lines 765-781 *)
Definition vec_lane_ops : list (N * (LaneIdx -> instr)) :=
    [ (21, I_I8x16ExtractLaneS)
    ; (22, I_I8x16ExtractLaneU)
    ; (23, I_I8x16ReplaceLane)
    ; (24, I_I16x8ExtractLaneS)
    ; (25, I_I16x8ExtractLaneU)
    ; (26, I_I16x8ReplaceLane)
    ; (27, I_I32x4ExtractLane)
    ; (28, I_I32x4ReplaceLane)
    ; (29, I_I64x2ExtractLane)
    ; (30, I_I64x2ReplaceLane)
    ; (31, I_F32x4ExtractLane)
    ; (32, I_F32x4ReplaceLane)
    ; (33, I_F64x2ExtractLane)
    ; (34, I_F64x2ReplaceLane) ].

(** lines 783-1004 *)
Definition plain_fd_ops : list (N * instr) :=
    [ (14, I_I8x16Swizzle)
    ; (256, I_I8x16RelaxedSwizzle)
    ; (15, I_I8x16Splat)
    ; (16, I_I16x8Splat)
    ; (17, I_I32x4Splat)
    ; (18, I_I64x2Splat)
    ; (19, I_F32x4Splat)
    ; (20, I_F64x2Splat)
    ; (35, I_I8x16Eq)
    ; (36, I_I8x16Ne)
    ; (37, I_I8x16LtS)
    ; (38, I_I8x16LtU)
    ; (39, I_I8x16GtS)
    ; (40, I_I8x16GtU)
    ; (41, I_I8x16LeS)
    ; (42, I_I8x16LeU)
    ; (43, I_I8x16GeS)
    ; (44, I_I8x16GeU)
    ; (45, I_I16x8Eq)
    ; (46, I_I16x8Ne)
    ; (47, I_I16x8LtS)
    ; (48, I_I16x8LtU)
    ; (49, I_I16x8GtS)
    ; (50, I_I16x8GtU)
    ; (51, I_I16x8LeS)
    ; (52, I_I16x8LeU)
    ; (53, I_I16x8GeS)
    ; (54, I_I16x8GeU)
    ; (55, I_I32x4Eq)
    ; (56, I_I32x4Ne)
    ; (57, I_I32x4LtS)
    ; (58, I_I32x4LtU)
    ; (59, I_I32x4GtS)
    ; (60, I_I32x4GtU)
    ; (61, I_I32x4LeS)
    ; (62, I_I32x4LeU)
    ; (63, I_I32x4GeS)
    ; (64, I_I32x4GeU)
    ; (65, I_F32x4Eq)
    ; (66, I_F32x4Ne)
    ; (67, I_F32x4Lt)
    ; (68, I_F32x4Gt)
    ; (69, I_F32x4Le)
    ; (70, I_F32x4Ge)
    ; (71, I_F64x2Eq)
    ; (72, I_F64x2Ne)
    ; (73, I_F64x2Lt)
    ; (74, I_F64x2Gt)
    ; (75, I_F64x2Le)
    ; (76, I_F64x2Ge)
    ; (77, I_V128Not)
    ; (78, I_V128And)
    ; (79, I_V128AndNot)
    ; (80, I_V128Or)
    ; (81, I_V128Xor)
    ; (82, I_V128Bitselect)
    ; (265, I_I8x16RelaxedLaneSelect)
    ; (266, I_I16x8RelaxedLaneSelect)
    ; (267, I_I32x4RelaxedLaneSelect)
    ; (268, I_I64x2RelaxedLaneSelect)
    ; (83, I_V128AnyTrue)
    ; (96, I_I8x16Abs)
    ; (97, I_I8x16Neg)
    ; (98, I_I8x16Popcnt)
    ; (99, I_I8x16AllTrue)
    ; (100, I_I8x16Bitmask)
    ; (101, I_I8x16NarrowI16x8S)
    ; (102, I_I8x16NarrowI16x8U)
    ; (107, I_I8x16Shl)
    ; (108, I_I8x16ShrS)
    ; (109, I_I8x16ShrU)
    ; (110, I_I8x16Add)
    ; (111, I_I8x16AddSatS)
    ; (112, I_I8x16AddSatU)
    ; (113, I_I8x16Sub)
    ; (114, I_I8x16SubSatS)
    ; (115, I_I8x16SubSatU)
    ; (118, I_I8x16MinS)
    ; (119, I_I8x16MinU)
    ; (120, I_I8x16MaxS)
    ; (121, I_I8x16MaxU)
    ; (123, I_I8x16AvgrU)
    ; (124, I_I16x8ExtaddPairwiseI8x16S)
    ; (125, I_I16x8ExtaddPairwiseI8x16U)
    ; (126, I_I32x4ExtaddPairwiseI16x8S)
    ; (127, I_I32x4ExtaddPairwiseI16x8U)
    ; (128, I_I16x8Abs)
    ; (129, I_I16x8Neg)
    ; (130, I_I16x8Q15MulrSatS)
    ; (131, I_I16x8AllTrue)
    ; (132, I_I16x8Bitmask)
    ; (133, I_I16x8NarrowI32x4S)
    ; (134, I_I16x8NarrowI32x4U)
    ; (135, I_I16x8ExtendLowI8x16S)
    ; (136, I_I16x8ExtendHighI8x16S)
    ; (137, I_I16x8ExtendLowI8x16U)
    ; (138, I_I16x8ExtendHighI8x16U)
    ; (139, I_I16x8Shl)
    ; (140, I_I16x8ShrS)
    ; (141, I_I16x8ShrU)
    ; (142, I_I16x8Add)
    ; (143, I_I16x8AddSatS)
    ; (144, I_I16x8AddSatU)
    ; (145, I_I16x8Sub)
    ; (146, I_I16x8SubSatS)
    ; (147, I_I16x8SubSatU)
    ; (149, I_I16x8Mul)
    ; (150, I_I16x8MinS)
    ; (151, I_I16x8MinU)
    ; (152, I_I16x8MaxS)
    ; (153, I_I16x8MaxU)
    ; (155, I_I16x8AvgrU)
    ; (273, I_I16x8RelaxedQ15MulrS)
    ; (156, I_I16x8ExtmulLowI8x16S)
    ; (157, I_I16x8ExtmulHighI8x16S)
    ; (158, I_I16x8ExtmulLowI8x16U)
    ; (159, I_I16x8ExtmulHighI8x16U)
    ; (274, I_I16x8RelaxedDotSI8x16)
    ; (275, I_I32x4RelaxedDotAddSI16x8)
    ; (160, I_I32x4Abs)
    ; (161, I_I32x4Neg)
    ; (163, I_I32x4AllTrue)
    ; (164, I_I32x4Bitmask)
    ; (167, I_I32x4ExtendLowI16x8S)
    ; (168, I_I32x4ExtendHighI16x8S)
    ; (169, I_I32x4ExtendLowI16x8U)
    ; (170, I_I32x4ExtendHighI16x8U)
    ; (171, I_I32x4Shl)
    ; (172, I_I32x4ShrS)
    ; (173, I_I32x4ShrU)
    ; (174, I_I32x4Add)
    ; (177, I_I32x4Sub)
    ; (181, I_I32x4Mul)
    ; (182, I_I32x4MinS)
    ; (183, I_I32x4MinU)
    ; (184, I_I32x4MaxS)
    ; (185, I_I32x4MaxU)
    ; (186, I_I32x4DotI16x8S)
    ; (188, I_I32x4ExtmulLowI16x8S)
    ; (189, I_I32x4ExtmulHighI16x8S)
    ; (190, I_I32x4ExtmulLowI16x8U)
    ; (191, I_I32x4ExtmulHighI16x8U)
    ; (192, I_I64x2Abs)
    ; (193, I_I64x2Neg)
    ; (195, I_I64x2AllTrue)
    ; (196, I_I64x2Bitmask)
    ; (199, I_I64x2ExtendLowI32x4S)
    ; (200, I_I64x2ExtendHighI32x4S)
    ; (201, I_I64x2ExtendLowI32x4U)
    ; (202, I_I64x2ExtendHighI32x4U)
    ; (203, I_I64x2Shl)
    ; (204, I_I64x2ShrS)
    ; (205, I_I64x2ShrU)
    ; (206, I_I64x2Add)
    ; (209, I_I64x2Sub)
    ; (213, I_I64x2Mul)
    ; (214, I_I64x2Eq)
    ; (215, I_I64x2Ne)
    ; (216, I_I64x2LtS)
    ; (217, I_I64x2GtS)
    ; (218, I_I64x2LeS)
    ; (219, I_I64x2GeS)
    ; (220, I_I64x2ExtmulLowI32x4S)
    ; (221, I_I64x2ExtmulHighI32x4S)
    ; (222, I_I64x2ExtmulLowI32x4U)
    ; (223, I_I64x2ExtmulHighI32x4U)
    ; (103, I_F32x4Ceil)
    ; (104, I_F32x4Floor)
    ; (105, I_F32x4Trunc)
    ; (106, I_F32x4Nearest)
    ; (224, I_F32x4Abs)
    ; (225, I_F32x4Neg)
    ; (227, I_F32x4Sqrt)
    ; (228, I_F32x4Add)
    ; (229, I_F32x4Sub)
    ; (230, I_F32x4Mul)
    ; (231, I_F32x4Div)
    ; (232, I_F32x4Min)
    ; (233, I_F32x4Max)
    ; (234, I_F32x4PMin)
    ; (235, I_F32x4PMax)
    ; (269, I_F32x4RelaxedMin)
    ; (270, I_F32x4RelaxedMax)
    ; (271, I_F64x2RelaxedMin)
    ; (272, I_F64x2RelaxedMax)
    ; (261, I_F32x4RelaxedMAdd)
    ; (262, I_F32x4RelaxedNMAdd)
    ; (263, I_F64x2RelaxedMAdd)
    ; (264, I_F64x2RelaxedNMAdd)
    ; (116, I_F64x2Ceil)
    ; (117, I_F64x2Floor)
    ; (122, I_F64x2Trunc)
    ; (148, I_F64x2Nearest)
    ; (236, I_F64x2Abs)
    ; (237, I_F64x2Neg)
    ; (239, I_F64x2Sqrt)
    ; (240, I_F64x2Add)
    ; (241, I_F64x2Sub)
    ; (242, I_F64x2Mul)
    ; (243, I_F64x2Div)
    ; (244, I_F64x2Min)
    ; (245, I_F64x2Max)
    ; (246, I_F64x2PMin)
    ; (247, I_F64x2PMax)
    ; (248, I_I32x4TruncSatF32x4S)
    ; (249, I_I32x4TruncSatF32x4U)
    ; (250, I_F32x4ConvertI32x4S)
    ; (251, I_F32x4ConvertI32x4U)
    ; (252, I_I32x4TruncSatF64x2SZero)
    ; (253, I_I32x4TruncSatF64x2UZero)
    ; (254, I_F64x2ConvertLowI32x4S)
    ; (255, I_F64x2ConvertLowI32x4U)
    ; (257, I_I32x4RelaxedTruncF32x4S)
    ; (258, I_I32x4RelaxedTruncF32x4U)
    ; (259, I_I32x4RelaxedTruncF64x2SZero)
    ; (260, I_I32x4RelaxedTruncF64x2UZero)
    ; (94, I_F32x4DemoteF64x2Zero)
    ; (95, I_F64x2PromoteLowF32x4) ].

(** [match op { k => Instruction::X(..), .., _ => unreachable!() }]: the inner
    matches nested in a range arm *)
(** src/decode/instructions.rs, the inner matches of Instruction::parse (203-1018) *)
Definition inner {R E A} (op : N) (tbl : list (N * A)) : M R E A :=
  match assocN op tbl with
  | Some a => ret a
  | None => panic_with UnreachableReached
  end.

(** short-hands for [X::decode(reader).map_err(..)?] inside [Instruction::parse]
    (the outer constructor is the [From] conversion, lines 20-59) *)
Definition ctl {R A E} (f : E -> ControlError) (p : M R E A) : M R ParseError A := map_err (fun e => PE_Control (f e)) p.
Definition rf {R A E} (f : E -> ReferenceError) (p : M R E A) : M R ParseError A := map_err (fun e => PE_Reference (f e)) p.
Definition agg {R A E} (f : E -> AggregateError) (p : M R E A) : M R ParseError A := map_err (fun e => PE_Aggregate (f e)) p.
Definition var {R A E} (f : E -> VariableError) (p : M R E A) : M R ParseError A := map_err (fun e => PE_Variable (f e)) p.
Definition tab {R A E} (f : E -> TableError) (p : M R E A) : M R ParseError A := map_err (fun e => PE_Table (f e)) p.
Definition mem {R A E} (f : E -> MemoryError) (p : M R E A) : M R ParseError A := map_err (fun e => PE_Memory (f e)) p.
Definition num {R A E} (f : E -> NumericError) (p : M R E A) : M R ParseError A := map_err (fun e => PE_Numeric (f e)) p.
Definition vec {R A E} (f : E -> VectorError) (p : M R E A) : M R ParseError A := map_err (fun e => PE_Vector (f e)) p.

Section Instr.
  Context {env : Env} {R : Type} `{Reader R}.

  (** src/decode/instructions.rs:1037-1055 *)
  Definition decode_memarg : M R MemargError Memarg :=
    n <- map_err MA_Align decode_u32 ;;
    '(mem_idx, align) <-
      (if n <? 2 ^ 6 then ret (0, n)
       else if n <? 2 ^ 7 then
         x <- map_err MA_MemIdx decode_memidx ;;
         a <- sub_u32 n (2 ^ 6) ;;
         ret (x, a)
       else throw (MA_InvalidFlagsBit n)) ;;
    offset <- map_err MA_Offset decode_u64 ;;
    ret (mkMemarg mem_idx align offset).

  (** src/decode/instructions.rs:1067-1069 *)
  Definition decode_laneidx : M R LaneIdxError LaneIdx := map_err LaneIdxE read_byte.

  (** src/decode/instructions.rs:1085-1110.  Both cursors wrap the same byte
      [b]; the second chain is built over the first. *)
  Definition decode_blocktype : M R BlockTypeError BlockType :=
    b <- map_err BT_ReadMarkerByte read_byte ;;
    if b2n b =? 0x40 then ret BT_Empty                                      (* 1087-1089 *)
    else
      with_chain b (                                                        (* 1091 *)
        t <- try_ok decode_valtype ;;                                       (* 1092 *)
        match t with
        | Some t => ret (BT_T t)                                            (* 1093 *)
        | None =>
            with_chain b (                                                  (* 1101 *)
              x <- map_err BT_DecodeIndex decode_s33 ;;                     (* 1102 *)
              if (x <? 0)%Z then throw (BT_NegativeTypeIndex x)             (* 1103-1105 *)
              else
                x <- u32_try_from_unwrap x ;;                               (* 1107 *)
                ret (BT_I x))
        end).

  (** src/decode/instructions.rs:1129-1147 *)
  Definition decode_catch : M R CatchError Catch :=
    marker <- map_err Catch_ReadMarkerByte read_byte ;;
    switch (b2n marker)
      [ (P1 0x00, x <- map_err Catch_DecodeTagIdx decode_tagidx ;;
                  l <- map_err Catch_DecodeLabelIdx decode_labelidx ;;
                  ret (C_Catch x l))
      ; (P1 0x01, x <- map_err Catch_DecodeTagIdx decode_tagidx ;;
                  l <- map_err Catch_DecodeLabelIdx decode_labelidx ;;
                  ret (C_CatchRef x l))
      ; (P1 0x02, l <- map_err Catch_DecodeLabelIdx decode_labelidx ;; ret (C_CatchAll l))
      ; (P1 0x03, l <- map_err Catch_DecodeLabelIdx decode_labelidx ;; ret (C_CatchAllRef l)) ]
      (throw (Catch_InvalidMarkerByte marker)).

  (** src/decode/instructions.rs:1150-1158 *)
  Definition decode_castop : M R ControlError (bool * bool) :=
    b <- map_err Ctl_ReadCastNullabilityMarker read_byte ;;
    switch (b2n b)
      [ (P1 0x00, ret (false, false))
      ; (P1 0x01, ret (true, false))
      ; (P1 0x02, ret (false, true))
      ; (P1 0x03, ret (true, true)) ]
      (throw (Ctl_InvalidCastNullabilityMarker b)).

  (** The loops of lines 226-239 / 248-257 / 301-308.  [p] is the recursive
      [Self::parse]; [allow_else] is [op == 0x04] in the first loop, false in
      the others.  Returns the body and the delimiter that ended it. *)
  Fixpoint body_loop (p : M R ParseError ParseResult) (allow_else : bool) (fuel : nat) (acc : list instr)
    : M R ParseError (list instr * ParseResult) :=
    match fuel with
    | O => stuck
    | S fuel' =>
        parsed <- p ;;
        match parsed with
        | PR_Instr i => _ <- alloc (lenN (i :: acc)) ;; body_loop p allow_else fuel' (i :: acc)
        | PR_End => ret (rev acc, PR_End)
        | PR_Else => if allow_else then ret (rev acc, PR_Else)
                     else throw (PE_Control Ctl_UnexpectedElse)
        end
    end.
  (** the same with enough fuel for the reader at hand *)
  (** src/decode/instructions.rs:226-239, 248-257, 301-308 *)
  Definition parse_body (p : M R ParseError ParseResult) (allow_else : bool)
    : M R ParseError (list instr * ParseResult) :=
    fun r => body_loop p allow_else (S (budget r)) [] r.

  (** lines 221-264: block, loop, if *)
  Definition parse_block (p : M R ParseError ParseResult) (op : N) : M R ParseError instr :=
    bt <- ctl Ctl_BlockType decode_blocktype ;;                                             (* 222 *)
    '(in1, parsed) <- parse_body p (op =? 0x04) ;;                                          (* 226-239 *)
    switch op
      [ (P1 0x02, ret (I_Block bt in1))                                                     (* 242 *)
      ; (P1 0x03, ret (I_Loop bt in1))                                                      (* 243 *)
      ; (P1 0x04, match parsed with                                                         (* 244 *)
                  | PR_End => ret (I_If bt in1 None)                                        (* 245 *)
                  | PR_Else =>
                      '(in2, _) <- parse_body p false ;;                                    (* 248-257 *)
                      ret (I_If bt in1 (Some in2))                                          (* 258 *)
                  | PR_Instr _ => panic_with UnreachableReached                             (* 260 *)
                  end) ]
      (panic_with UnreachableReached).                                                      (* 262 *)

  (** lines 294-311: try_table *)
  Definition parse_try_table (p : M R ParseError ParseResult) : M R ParseError instr :=
    bt <- ctl Ctl_BlockType decode_blocktype ;;
    c <- ctl Ctl_DecodeCatchListError (decode_list decode_catch) ;;
    '(ins, _) <- parse_body p false ;;
    ret (I_TryTable bt c ins).

  (** lines 331-461: 0xFB prefix *)
  Definition parse_fb : M R ParseError instr :=
    op <- rf Ref_ReadSubOpcode decode_u32 ;;
    switch op
      [ (P1 0, t <- agg Agg_TypeIdx decode_typeidx ;; ret (I_StructNew t))
      ; (P1 1, t <- agg Agg_TypeIdx decode_typeidx ;; ret (I_StructNewDefault t))
      ; (P1 2, t <- agg Agg_TypeIdx decode_typeidx ;; f <- agg Agg_FieldIndex decode_u32 ;; ret (I_StructGet t f))
      ; (P1 3, t <- agg Agg_TypeIdx decode_typeidx ;; f <- agg Agg_FieldIndex decode_u32 ;; ret (I_StructGetS t f))
      ; (P1 4, t <- agg Agg_TypeIdx decode_typeidx ;; f <- agg Agg_FieldIndex decode_u32 ;; ret (I_StructGetU t f))
      ; (P1 5, t <- agg Agg_TypeIdx decode_typeidx ;; f <- agg Agg_FieldIndex decode_u32 ;; ret (I_StructSet t f))
      ; (P1 6, t <- agg Agg_TypeIdx decode_typeidx ;; ret (I_ArrayNew t))
      ; (P1 7, t <- agg Agg_TypeIdx decode_typeidx ;; ret (I_ArrayNewDefault t))
      ; (P1 8, t <- agg Agg_TypeIdx decode_typeidx ;; n <- agg Agg_ArrayFixedLength decode_u32 ;; ret (I_ArrayNewFixed t n))
      ; (P1 9, t <- agg Agg_TypeIdx decode_typeidx ;; d <- agg Agg_DataIdx decode_dataidx ;; ret (I_ArrayNewData t d))
      ; (P1 10, t <- agg Agg_TypeIdx decode_typeidx ;; e <- agg Agg_ElemIdx decode_elemidx ;; ret (I_ArrayNewElem t e))
      ; (P1 11, t <- agg Agg_TypeIdx decode_typeidx ;; ret (I_ArrayGet t))
      ; (P1 12, t <- agg Agg_TypeIdx decode_typeidx ;; ret (I_ArrayGetS t))
      ; (P1 13, t <- agg Agg_TypeIdx decode_typeidx ;; ret (I_ArrayGetU t))
      ; (P1 14, t <- agg Agg_TypeIdx decode_typeidx ;; ret (I_ArraySet t))
      ; (P1 16, t <- agg Agg_TypeIdx decode_typeidx ;; ret (I_ArrayFill t))
      ; (P1 17, dst <- agg Agg_TypeIdx decode_typeidx ;; src <- agg Agg_TypeIdx decode_typeidx ;; ret (I_ArrayCopy dst src))
      ; (P1 18, t <- agg Agg_TypeIdx decode_typeidx ;; d <- agg Agg_DataIdx decode_dataidx ;; ret (I_ArrayInitData t d))
      ; (P1 19, t <- agg Agg_TypeIdx decode_typeidx ;; e <- agg Agg_ElemIdx decode_elemidx ;; ret (I_ArrayInitElem t e))
      ; (PR 20 23,                                                                          (* 420-435 *)
           h <- rf Ref_HeapType decode_heaptype ;;
           switch op
             [ (P1 20, ret (I_RefTest (mkRefType false h)))
             ; (P1 21, ret (I_RefTest (mkRefType true h)))
             ; (P1 22, ret (I_RefCast (mkRefType false h)))
             ; (P1 23, ret (I_RefCast (mkRefType true h))) ]
             (panic_with UnreachableReached))
      ; (POr (P1 24) (P1 25),                                                               (* 438-457 *)
           '(nullable1, nullable2) <- map_err PE_Control decode_castop ;;
           l <- ctl Ctl_LabelIdx decode_labelidx ;;
           ht1 <- ctl Ctl_HeapType decode_heaptype ;;
           ht2 <- ctl Ctl_HeapType decode_heaptype ;;
           let rt1 := mkRefType nullable1 ht1 in
           let rt2 := mkRefType nullable2 ht2 in
           if op =? 24 then ret (I_BrOnCast l rt1 rt2) else ret (I_BrOnCastFail l rt1 rt2)) ]
      (match assocN op plain_fb_ops with
       | Some i => ret i
       | None => throw (PE_InvalidMarkerByteAfterFB op)                                     (* 459 *)
       end).

  (** lines 657-710: 0xFC prefix *)
  Definition parse_fc : M R ParseError instr :=
    op <- num Num_ReadOpcode decode_u32 ;;
    switch op
      [ (P1 8, y <- mem Mem_DecodeDataIdx decode_dataidx ;; x <- mem Mem_DecodeMemIdx decode_memidx ;; ret (I_MemoryInit x y))
      ; (P1 9, x <- mem Mem_DecodeDataIdx decode_dataidx ;; ret (I_DataDrop x))
      ; (P1 10, x1 <- mem Mem_DecodeMemIdx decode_memidx ;; x2 <- mem Mem_DecodeMemIdx decode_memidx ;; ret (I_MemoryCopy x1 x2))
      ; (P1 11, x <- mem Mem_DecodeMemIdx decode_memidx ;; ret (I_MemoryFill x))
      ; (P1 12, y <- tab Tab_ElemIdx decode_elemidx ;; x <- tab Tab_TableIdx decode_tableidx ;; ret (I_TableInit x y))
      ; (P1 13, x <- tab Tab_ElemIdx decode_elemidx ;; ret (I_ElemDrop x))
      ; (P1 14, x1 <- tab Tab_TableIdx decode_tableidx ;; x2 <- tab Tab_TableIdx decode_tableidx ;; ret (I_TableCopy x1 x2))
      ; (P1 15, x <- tab Tab_TableIdx decode_tableidx ;; ret (I_TableGrow x))
      ; (P1 16, x <- tab Tab_TableIdx decode_tableidx ;; ret (I_TableSize x))
      ; (P1 17, x <- tab Tab_TableIdx decode_tableidx ;; ret (I_TableFill x)) ]
      (match assocN op plain_fc_ops with
       | Some i => ret i
       | None => throw (PE_InvalidMarkerByteAfterFC op)                                     (* 709 *)
       end).

  (** lines 713-1007: 0xFD prefix *)
  Definition parse_fd : M R ParseError instr :=
    op <- vec Vec_ReadOpcode decode_u32 ;;
    switch op
      [ (POr (PR 0 11) (POr (P1 92) (P1 93)),                                               (* 714-733 *)
           m <- vec Vec_Memarg decode_memarg ;;
           f <- inner op vec_mem_ops ;; ret (f m))
      ; (PR 84 91,                                                                          (* 734-748 *)
           m <- vec Vec_Memarg decode_memarg ;;
           l <- vec Vec_LaneIdx decode_laneidx ;;
           f <- inner op vec_mem_lane_ops ;; ret (f m l))
      ; (P1 12, buf <- vec Vec_ReadImmediateBytes (read_exact 16) ;; ret (I_V128Const buf))  (* 749-755 *)
      ; (P1 13, buf <- vec Vec_ReadImmediateBytes (read_exact 16) ;; ret (I_I8x16Shuffle buf)) (* 756-762 *)
      ; (PR 21 34,                                                                          (* 763-782 *)
           l <- vec Vec_LaneIdx decode_laneidx ;;
           f <- inner op vec_lane_ops ;; ret (f l)) ]
      (match assocN op plain_fd_ops with
       | Some i => ret i
       | None => throw (PE_Vector (Vec_InvalidOpcode op))                                   (* 1006 *)
       end).

  (** lines 207-1011, given the opcode byte; [p] is the recursive call *)
  Definition parse_op (p : M R ParseError ParseResult) (opcode : byte) : M R ParseError ParseResult :=
    let op := b2n opcode in
    switch op
      [ (P1 0x0B, ret PR_End)                                                               (* 208 *)
      ; (P1 0x05, ret PR_Else) ]                                                            (* 209 *)
      (ins <-
        switch op
          [ (P1 0x1B, ret (I_Select None))                                                  (* 215 *)
          ; (P1 0x1C, t <- map_err (fun e => PE_Parametric (Par_DecodeList e)) (decode_list decode_valtype) ;;
                      ret (I_Select (Some t)))                                              (* 216-218 *)
          ; (PR 0x02 0x04, parse_block p op)                                                (* 221-264 *)
          ; (P1 0x08, x <- ctl Ctl_TagIdx decode_tagidx ;; ret (I_Throw x))
          ; (P1 0x0C, x <- ctl Ctl_LabelIdx decode_labelidx ;; ret (I_Br x))
          ; (P1 0x0D, x <- ctl Ctl_LabelIdx decode_labelidx ;; ret (I_BrIf x))
          ; (P1 0x0E, l <- ctl Ctl_DecodeLabelIdxVector (decode_list decode_labelidx) ;;
                      ln <- ctl Ctl_LabelIdx decode_labelidx ;; ret (I_BrTable l ln))
          ; (P1 0x10, x <- ctl Ctl_FuncIdx decode_funcidx ;; ret (I_Call x))
          ; (P1 0x11, y <- ctl Ctl_TypeIdx decode_typeidx ;; x <- ctl Ctl_TableIdx decode_tableidx ;;
                      ret (I_CallIndirect x y))
          ; (P1 0x12, x <- ctl Ctl_FuncIdx decode_funcidx ;; ret (I_ReturnCall x))
          ; (P1 0x13, y <- ctl Ctl_TypeIdx decode_typeidx ;; x <- ctl Ctl_TableIdx decode_tableidx ;;
                      ret (I_ReturnCallIndirect x y))
          ; (P1 0x14, x <- ctl Ctl_TypeIdx decode_typeidx ;; ret (I_CallRef x))
          ; (P1 0x15, x <- ctl Ctl_TypeIdx decode_typeidx ;; ret (I_ReturnCallRef x))
          ; (P1 0x1F, parse_try_table p)                                                    (* 294-311 *)
          ; (P1 0xD5, x <- ctl Ctl_LabelIdx decode_labelidx ;; ret (I_BrOnNull x))
          ; (P1 0xD6, x <- ctl Ctl_LabelIdx decode_labelidx ;; ret (I_BrOnNonNull x))
          ; (P1 0xD0, x <- rf Ref_HeapType decode_heaptype ;; ret (I_RefNull x))
          ; (P1 0xD2, x <- rf Ref_FuncIdx decode_funcidx ;; ret (I_RefFunc x))
          ; (P1 0xFB, parse_fb)
          ; (P1 0x20, x <- var Var_LocalIdx decode_localidx ;; ret (I_LocalGet x))
          ; (P1 0x21, x <- var Var_LocalIdx decode_localidx ;; ret (I_LocalSet x))
          ; (P1 0x22, x <- var Var_LocalIdx decode_localidx ;; ret (I_LocalTee x))
          ; (P1 0x23, x <- var Var_GlobalIdx decode_globalidx ;; ret (I_GlobalGet x))
          ; (P1 0x24, x <- var Var_GlobalIdx decode_globalidx ;; ret (I_GlobalSet x))
          ; (P1 0x25, x <- tab Tab_TableIdx decode_tableidx ;; ret (I_TableGet x))
          ; (P1 0x26, x <- tab Tab_TableIdx decode_tableidx ;; ret (I_TableSet x))
          ; (PR 0x28 0x3E, m <- mem Mem_DecodeMemarg decode_memarg ;;                       (* 485-513 *)
                           f <- inner op mem_ops ;; ret (f m))
          ; (P1 0x3F, x <- mem Mem_DecodeMemIdx decode_memidx ;; ret (I_MemorySize x))
          ; (P1 0x40, x <- mem Mem_DecodeMemIdx decode_memidx ;; ret (I_MemoryGrow x))
          ; (P1 0x41, x <- num Num_DecodeI32 decode_i32 ;; ret (I_I32Const x))
          ; (P1 0x42, x <- num Num_DecodeI64 decode_i64 ;; ret (I_I64Const x))
          ; (P1 0x43, x <- num Num_DecodeF32 decode_f32 ;; ret (I_F32Const x))
          ; (P1 0x44, x <- num Num_DecodeF64 decode_f64 ;; ret (I_F64Const x))
          ; (P1 0xFC, parse_fc)
          ; (P1 0xFD, parse_fd) ]
          (match assocN op plain_ops with
           | Some i => ret i
           | None => throw (PE_InvalidOpcode opcode)                                        (* 1008 *)
           end) ;;
       ret (PR_Instr ins)).                                                                 (* 1011 *)

  (** src/decode/instructions.rs:203-1012 [Instruction::parse].  [d] counts the
      stack frames still available to the recursion. *)
  Fixpoint parse (d : nat) : M R ParseError ParseResult :=
    match d with
    | O => panic_with StackOverflow
    | S d' =>
        opcode <- map_err PE_ReadOpcode read_byte ;;                                        (* 204-205 *)
        parse_op (parse d') opcode
    end.
End Instr.

(** src/decode/helpers.rs:47-66 *)
Fixpoint instruction_contains_data_index (ins : instr) : bool :=
  match ins with
  | I_MemoryInit _ _ | I_DataDrop _ | I_ArrayNewData _ _ | I_ArrayInitData _ _ => true
  | I_Block _ body | I_Loop _ body | I_TryTable _ _ body =>
      existsb instruction_contains_data_index body
  | I_If _ then_body else_body =>
      existsb instruction_contains_data_index then_body
      || match else_body with
         | Some body => existsb instruction_contains_data_index body
         | None => false
         end
  | _ => false
  end.

Section Expr.
  Context {env : Env} {R : Type} `{Reader R}.

  (** src/decode/helpers.rs:29-42, the loop *)
  Fixpoint expr_loop (fuel : nat) (body : list instr) (encountered : bool)
    : M R ParseExpressionError (Expr * bool) :=
    match fuel with
    | O => stuck
    | S fuel' =>
        parsed <- map_err Expr_ParseInstruction (parse stack_limit) ;;                      (* 30 *)
        match parsed with
        | PR_Instr ins =>
            _ <- alloc (lenN (ins :: body)) ;;                                              (* 35 *)
            expr_loop fuel' (ins :: body)
              (if instruction_contains_data_index ins then true else encountered)           (* 31-36 *)
        | PR_End => ret (rev body, encountered)                                             (* 37, 44 *)
        | PR_Else => throw Expr_UnexpectedElse                                              (* 40 *)
        end
    end.
  (** src/decode/helpers.rs:23-45 *)
  Definition decode_expr : M R ParseExpressionError (Expr * bool) :=
    fun r => expr_loop (S (budget r)) [] false r.
End Expr.
