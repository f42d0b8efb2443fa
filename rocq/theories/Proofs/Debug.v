(** [{module:#?}] determines the module up to NaNs. *)
From Verif Require Import Model.Prelude Model.Ast Model.Eq Model.Display Model.Debug Spec.Equal Spec.Debug.
From Verif Require Import Spec.Cli Spec.Texts Proofs.Decimal Proofs.Pretty Proofs.Equal.
From Coq Require Import Bool Lia ZifyN ZifyNat ZifyBool String Ascii Strings.Byte.
Local Open Scope string_scope.

(** ** decidable versions, for literals *)
Definition one_lineb (s : string) : bool := forallb (fun c => negb (Ascii.eqb c newline)) (chars s).
Lemma one_lineb_ok s : one_lineb s = true -> one_line s.
Proof. unfold one_lineb, one_line. rewrite forallb_forall. intros H Hi. specialize (H _ Hi). rewrite Ascii.eqb_refl in H. discriminate H. Qed.
Definition tokenb (s : string) : bool := negb (String.eqb s "") && forallb token_char (chars s).
Lemma tokenb_ok s : tokenb s = true -> token s.
Proof. unfold tokenb. rewrite andb_true_iff, negb_true_iff, String.eqb_neq, forallb_forall. intros [H1 H]. split; [exact H1|]. apply Forall_forall. exact H. Qed.
Lemma atomb_ok p s : tokenb s = true -> wf p (DAtom s).
Proof. intros H. left. apply tokenb_ok. exact H. Qed.

Lemma unit_ok p : wf p (DAtom "()").
Proof. right. right. reflexivity. Qed.

(** ** a value can be read off its tree *)
(** with [DPath], or without *)
Class Paths := with_paths : bool.
Class Reads {p : Paths} {A} (d : A -> dtree) : Prop := { rd_wf : forall a, wf p (d a); rd_inj : forall a b, d a = d b -> a = b }.
#[local] Hint Mode Reads - - ! : typeclass_instances.
Definition tname (t : dtree) : string := match t with DAtom s => s | DTuple s _ => s | DStruct s _ => s | DList _ => "" | DPath s _ => s end.
Definition kids (t : dtree) : list dtree := match t with DTuple _ l | DList l => l | _ => [] end.
Definition fkids (t : dtree) : list (string * dtree) := match t with DStruct _ l => l | _ => [] end.
Lemma tuple_inj n l n' l' : DTuple n l = DTuple n' l' -> l = l'. Proof. intros E. exact (f_equal kids E). Qed.
Lemma dlist_inj l l' : DList l = DList l' -> l = l'. Proof. intros E. exact (f_equal kids E). Qed.
Lemma struct_inj n l n' l' : DStruct n l = DStruct n' l' -> l = l'. Proof. intros E. exact (f_equal fkids E). Qed.
Definition tail_of (t : dtree) : dtree := match t with DPath _ t => t | t => t end.
Lemma path_inj n n' t t' : DPath n t = DPath n' t' -> t = t'. Proof. intros E. exact (f_equal tail_of E). Qed.
Lemma cons_inj {A} (a b : A) l l' : a :: l = b :: l' -> a = b /\ l = l'. Proof. intros E. inversion E. auto. Qed.
Lemma pair_inj {A B} (a a' : A) (b b' : B) : (a, b) = (a', b') -> b = b'. Proof. intros E. exact (f_equal snd E). Qed.
Ltac peel E :=
  lazymatch type of E with
  | DTuple _ _ = DTuple _ _ => apply tuple_inj in E; peel E
  | DStruct _ _ = DStruct _ _ => apply struct_inj in E; peel E
  | (_, _) = (_, _) => apply pair_inj in E
  | _ :: _ = _ :: _ => let E1 := fresh "F" in apply cons_inj in E as [E1 E]; peel E1; peel E
  | [] = [] => clear E
  | _ => idtac
  end.
Ltac clash E := exfalso; apply (f_equal tname) in E; cbn [tname] in E; discriminate E.
Ltac read_back := repeat match goal with E : ?d ?a = ?d ?b |- _ => first [apply rd_inj in E] end.
Ltac wf_all :=
  repeat first
    [ apply rd_wf
    | apply wf_tuple; split; [apply tokenb_ok; reflexivity|split; [discriminate|]]
    | apply wf_struct; split; [apply tokenb_ok; reflexivity|split; [discriminate|]]
    | apply atomb_ok; reflexivity
    | apply unit_ok
    | apply Forall_cons; [|]
    | apply Forall_nil
    | split; [apply tokenb_ok; reflexivity|cbn [snd]] ].

Lemma numeral_token s n : decimal s n -> token s.
Proof.
  assert (HD : forall c d, is_digit c d -> token_char c = true).
  { intros c d [Hd Hc]. unfold token_char. rewrite Hc. replace ((48 <=? 48 + d) && (48 + d <=? 57))%N with true by lia. reflexivity. }
  induction 1 as [c d H|s n c d _ IH _ H].
  - split; [discriminate|]. constructor; [eauto|constructor].
  - destruct IH as [_ IH]. split; [destruct s; discriminate|]. rewrite chars_app. apply Forall_app. split; [exact IH|]. constructor; [eauto|constructor].
Qed.

#[export] Hint Extern 1 (tokenb _ = true) => reflexivity : typeclass_instances.
Tactic Notation "enumeration" reference(d) := split; [intros []; apply atomb_ok; reflexivity|intros [] [] E; first [reflexivity|discriminate E]].
Tactic Notation "structure" reference(d) :=
  split; [intros []; unfold d; wf_all|intros [] [] E; unfold d in E; first [clash E|peel E; read_back; cbn in *; subst; reflexivity]].

Section Style.
Context {p : Paths}.
#[export] Instance reads_N : Reads d_N.
Proof.
  split.
  - intros n. left. eapply numeral_token. apply dec_ok.
  - intros a b E. apply dec_inj. exact (f_equal tname E).
Qed.
Lemma integer_inj s z z' : integer s z -> integer s z' -> z = z'.
Proof.
  assert (HM : forall t n, decimal ("-" ++ t) n -> False).
  { clear. intros t n H. remember ("-" ++ t) as w eqn:Ew. revert t Ew. induction H as [c d [Hd Hc]|s n c d _ IH _ [Hd Hc]]; intros t Ew.
    - injection Ew as -> _. change (N_of_ascii "-") with 45%N in Hc. lia.
    - destruct s as [|x s]; [injection Ew as -> _; change (N_of_ascii "-") with 45%N in Hc; lia|]. injection Ew as -> _. exact (IH s eq_refl). }
  intros [[Hz H]|[Hz (t & -> & H)]] [[Hz' H']|[Hz' (t' & E' & H')]].
  - pose proof (decimal_inj _ _ _ H H'). lia.
  - subst s. exfalso. eauto.
  - exfalso. eauto.
  - apply (sapp_inj_l "-") in E' as <-. pose proof (decimal_inj _ _ _ H H'). lia.
Qed.
#[export] Instance reads_Z : Reads d_Z.
Proof.
  split.
  - intros z. destruct (decZ_ok z) as [[_ H]|[_ (t & E & H)]].
    + left. eapply numeral_token. exact H.
    + unfold d_Z. rewrite E. left. apply numeral_token in H as [_ H]. split; [discriminate|]. constructor; [reflexivity|exact H].
  - intros a b E. apply (f_equal tname) in E. cbn [tname d_Z] in E. apply (integer_inj (decZ a)); [apply decZ_ok|rewrite E; apply decZ_ok].
Qed.
#[export] Instance reads_byte : Reads d_byte.
Proof.
  split; [intros b; apply (rd_wf (d := d_N))|]. intros a b E. apply (rd_inj (d := d_N)) in E. pose proof (Byte.of_to_N a) as Ha. rewrite E, Byte.of_to_N in Ha. injection Ha as ->. reflexivity.
Qed.
#[export] Instance reads_list {A} (d : A -> dtree) : Reads d -> Reads (d_list d).
Proof.
  intros H. split.
  - intros l. apply wf_list. apply Forall_map. apply Forall_forall. intros a _. apply rd_wf.
  - intros a b E. apply dlist_inj in E. revert b E. induction a as [|x a IH]; intros [|y b] E; try discriminate E; [reflexivity|]. cbn [map] in E. apply cons_inj in E as [E1 E].
    apply rd_inj in E1 as ->. rewrite (IH _ E). reflexivity.
Qed.
#[export] Instance reads_option {A} (d : A -> dtree) : Reads d -> Reads (d_option d).
Proof.
  intros H. split.
  - intros [a|]; unfold d_option; wf_all.
  - intros [a|] [b|] E; unfold d_option in E; try clash E; [|reflexivity]. peel E. read_back. congruence.
Qed.
#[export] Instance reads_bytes : Reads d_bytes. Proof. exact (reads_list d_byte reads_byte). Qed.
#[export] Instance reads_idx s : tokenb s = true -> Reads (d_idx s).
Proof.
  intros Hs. split.
  - intros x. apply wf_tuple. split; [apply tokenb_ok; exact Hs|split; [discriminate|]]. constructor; [apply (rd_wf (d := d_N))|constructor].
  - intros a b E. unfold d_idx in E. peel E. read_back. assumption.
Qed.
#[export] Instance reads_bool : Reads d_bool. Proof. enumeration d_bool. Qed.
#[export] Instance reads_numtype : Reads d_numtype. Proof. enumeration d_numtype. Qed.
#[export] Instance reads_vectype : Reads d_vectype. Proof. enumeration d_vectype. Qed.
#[export] Instance reads_absheaptype : Reads d_absheaptype. Proof. enumeration d_absheaptype. Qed.
#[export] Instance reads_mut : Reads d_mut. Proof. enumeration d_mut. Qed.
#[export] Instance reads_packtype : Reads d_packtype. Proof. enumeration d_packtype. Qed.
#[export] Instance reads_addrtype : Reads d_addrtype. Proof. enumeration d_addrtype. Qed.
#[export] Instance reads_kind : Reads d_kind. Proof. enumeration d_kind. Qed.
#[export] Instance reads_heaptype : Reads d_heaptype. Proof. structure d_heaptype. Qed.
#[export] Instance reads_reftype : Reads d_reftype. Proof. structure d_reftype. Qed.
#[export] Instance reads_valtype : Reads d_valtype. Proof. structure d_valtype. Qed.
#[export] Instance reads_globaltype : Reads d_globaltype. Proof. structure d_globaltype. Qed.
#[export] Instance reads_storagetype : Reads d_storagetype. Proof. structure d_storagetype. Qed.
#[export] Instance reads_fieldtype : Reads d_fieldtype. Proof. structure d_fieldtype. Qed.
#[export] Instance reads_comptype : Reads d_comptype. Proof. structure d_comptype. Qed.
#[export] Instance reads_subtype : Reads d_subtype. Proof. structure d_subtype. Qed.
#[export] Instance reads_rectype : Reads d_rectype.
Proof. split; [intros a; unfold d_rectype; wf_all|intros a b E; unfold d_rectype in E; peel E; read_back; assumption]. Qed.
#[export] Instance reads_limits : Reads d_limits. Proof. structure d_limits. Qed.
#[export] Instance reads_memtype : Reads d_memtype. Proof. structure d_memtype. Qed.
#[export] Instance reads_tabletype : Reads d_tabletype. Proof. structure d_tabletype. Qed.
#[export] Instance reads_tagtype : Reads d_tagtype. Proof. structure d_tagtype. Qed.
#[export] Instance reads_externtype : Reads d_externtype. Proof. structure d_externtype. Qed.
#[export] Instance reads_memarg : Reads d_memarg. Proof. structure d_memarg. Qed.
#[export] Instance reads_lane : Reads d_lane.
Proof. split; [intros a; unfold d_lane; wf_all|intros a b E; unfold d_lane in E; peel E; read_back; assumption]. Qed.
#[export] Instance reads_blocktype : Reads d_blocktype. Proof. structure d_blocktype. Qed.
#[export] Instance reads_catch : Reads d_catch. Proof. structure d_catch. Qed.
#[export] Instance reads_externidx : Reads d_externidx. Proof. structure d_externidx. Qed.
#[export] Instance reads_header : Reads d_header. Proof. structure d_header. Qed.

(** ** one instruction of each variant *)
Definition R0 : RefType := mkRefType false (HtIdx 0%N).
Definition M0 : Memarg := mkMemarg 0%N 0%N 0%N.
Definition samples : list instr := [
    I_Unreachable; I_Nop; I_Block BT_Empty []; I_Loop BT_Empty []; I_If BT_Empty [] None; I_Br 0%N; I_BrIf 0%N; I_BrTable [] 0%N; I_BrOnNull 0%N;
    I_BrOnNonNull 0%N; I_BrOnCast 0%N R0 R0; I_BrOnCastFail 0%N R0 R0; I_Call 0%N; I_CallRef 0%N; I_CallIndirect 0%N 0%N; I_Return; I_ReturnCall 0%N;
    I_ReturnCallRef 0%N; I_ReturnCallIndirect 0%N 0%N; I_Throw 0%N; I_ThrowRef; I_TryTable BT_Empty [] []; I_RefFunc 0%N; I_RefNull (HtIdx 0%N);
    I_RefIsNull; I_RefAsNonNull; I_RefEq; I_RefTest R0; I_RefCast R0; I_StructNew 0%N; I_StructNewDefault 0%N; I_StructGet 0%N 0%N;
    I_StructGetS 0%N 0%N; I_StructGetU 0%N 0%N; I_StructSet 0%N 0%N; I_ArrayNew 0%N; I_ArrayNewDefault 0%N; I_ArrayNewFixed 0%N 0%N;
    I_ArrayNewData 0%N 0%N; I_ArrayNewElem 0%N 0%N; I_ArrayGet 0%N; I_ArrayGetS 0%N; I_ArrayGetU 0%N; I_ArraySet 0%N; I_ArrayLen; I_ArrayFill 0%N;
    I_ArrayCopy 0%N 0%N; I_ArrayInitData 0%N 0%N; I_ArrayInitElem 0%N 0%N; I_AnyConvertExtern; I_ExternConvertAny; I_RefI31; I_I31GetS; I_I31GetU;
    I_Drop; I_Select None; I_LocalGet 0%N; I_LocalSet 0%N; I_LocalTee 0%N; I_GlobalGet 0%N; I_GlobalSet 0%N; I_TableGet 0%N; I_TableSet 0%N;
    I_TableInit 0%N 0%N; I_ElemDrop 0%N; I_TableCopy 0%N 0%N; I_TableGrow 0%N; I_TableSize 0%N; I_TableFill 0%N; I_I32Load M0; I_I64Load M0;
    I_F32Load M0; I_F64Load M0; I_I32Load8s M0; I_I32Load8u M0; I_I32Load16s M0; I_I32Load16u M0; I_I64Load8s M0; I_I64Load8u M0; I_I64Load16s M0;
    I_I64Load16u M0; I_I64Load32s M0; I_I64Load32u M0; I_I32Store M0; I_I64Store M0; I_F32Store M0; I_F64Store M0; I_I32Store8 M0; I_I32Store16 M0;
    I_I64Store8 M0; I_I64Store16 M0; I_I64Store32 M0; I_MemorySize 0%N; I_MemoryGrow 0%N; I_MemoryInit 0%N 0%N; I_DataDrop 0%N; I_MemoryCopy 0%N 0%N;
    I_MemoryFill 0%N; I_I32Const 0%Z; I_I64Const 0%Z; I_F32Const 0%N; I_F64Const 0%N; I_I32Eqz; I_I32Eq; I_I32Ne; I_I32LtS; I_I32LtU; I_I32GtS;
    I_I32GtU; I_I32LeS; I_I32LeU; I_I32GeS; I_I32GeU; I_I64Eqz; I_I64Eq; I_I64Ne; I_I64LtS; I_I64LtU; I_I64GtS; I_I64GtU; I_I64LeS; I_I64LeU; I_I64GeS;
    I_I64GeU; I_F32Eq; I_F32Ne; I_F32Lt; I_F32Gt; I_F32Le; I_F32Ge; I_F64Eq; I_F64Ne; I_F64Lt; I_F64Gt; I_F64Le; I_F64Ge; I_I32Clz; I_I32Ctz;
    I_I32Popcnt; I_I32Add; I_I32Sub; I_I32Mul; I_I32DivS; I_I32DivU; I_I32RemS; I_I32RemU; I_I32And; I_I32Or; I_I32Xor; I_I32Shl; I_I32ShrS; I_I32ShrU;
    I_I32Rotl; I_I32Rotr; I_I64Clz; I_I64Ctz; I_I64Popcnt; I_I64Add; I_I64Sub; I_I64Mul; I_I64DivS; I_I64DivU; I_I64RemS; I_I64RemU; I_I64And; I_I64Or;
    I_I64Xor; I_I64Shl; I_I64ShrS; I_I64ShrU; I_I64Rotl; I_I64Rotr; I_F32Abs; I_F32Neg; I_F32Ceil; I_F32Floor; I_F32Trunc; I_F32Nearest; I_F32Sqrt;
    I_F32Add; I_F32Sub; I_F32Mul; I_F32Div; I_F32Min; I_F32Max; I_F32Copysign; I_F64Abs; I_F64Neg; I_F64Ceil; I_F64Floor; I_F64Trunc; I_F64Nearest;
    I_F64Sqrt; I_F64Add; I_F64Sub; I_F64Mul; I_F64Div; I_F64Min; I_F64Max; I_F64Copysign; I_I32WrapI64; I_I32TruncF32S; I_I32TruncF32U; I_I32TruncF64S;
    I_I32TruncF64U; I_I64ExtendI32S; I_I64ExtendI32U; I_I64TruncF32S; I_I64TruncF32U; I_I64TruncF64S; I_I64TruncF64U; I_F32ConvertI32S;
    I_F32ConvertI32U; I_F32ConvertI64S; I_F32ConvertI64U; I_F32DemoteF64; I_F64ConvertI32S; I_F64ConvertI32U; I_F64ConvertI64S; I_F64ConvertI64U;
    I_F64PromoteF32; I_I32ReinterpretF32; I_I64ReinterpretF64; I_F32ReinterpretI32; I_F64ReinterpretI64; I_I32Extend8S; I_I32Extend16S; I_I64Extend8S;
    I_I64Extend16S; I_I64Extend32S; I_I32TruncSatF32S; I_I32TruncSatF32U; I_I32TruncSatF64S; I_I32TruncSatF64U; I_I64TruncSatF32S; I_I64TruncSatF32U;
    I_I64TruncSatF64S; I_I64TruncSatF64U; I_V128Load M0; I_V128Load8x8S M0; I_V128Load8x8U M0; I_V128Load16x4S M0; I_V128Load16x4U M0;
    I_V128Load32x2S M0; I_V128Load32x2U M0; I_V128Load8Splat M0; I_V128Load16Splat M0; I_V128Load32Splat M0; I_V128Load64Splat M0; I_V128Load32Zero M0;
    I_V128Load64Zero M0; I_V128Store M0; I_V128Load8Lane M0 x00; I_V128Load16Lane M0 x00; I_V128Load32Lane M0 x00; I_V128Load64Lane M0 x00;
    I_V128Store8Lane M0 x00; I_V128Store16Lane M0 x00; I_V128Store32Lane M0 x00; I_V128Store64Lane M0 x00; I_V128Const []; I_I8x16Shuffle [];
    I_I8x16ExtractLaneS x00; I_I8x16ExtractLaneU x00; I_I8x16ReplaceLane x00; I_I16x8ExtractLaneS x00; I_I16x8ExtractLaneU x00; I_I16x8ReplaceLane x00;
    I_I32x4ExtractLane x00; I_I32x4ReplaceLane x00; I_I64x2ExtractLane x00; I_I64x2ReplaceLane x00; I_F32x4ExtractLane x00; I_F32x4ReplaceLane x00;
    I_F64x2ExtractLane x00; I_F64x2ReplaceLane x00; I_I8x16Swizzle; I_I8x16RelaxedSwizzle; I_I8x16Splat; I_I16x8Splat; I_I32x4Splat; I_I64x2Splat;
    I_F32x4Splat; I_F64x2Splat; I_I8x16Eq; I_I8x16Ne; I_I8x16LtS; I_I8x16LtU; I_I8x16GtS; I_I8x16GtU; I_I8x16LeS; I_I8x16LeU; I_I8x16GeS; I_I8x16GeU;
    I_I16x8Eq; I_I16x8Ne; I_I16x8LtS; I_I16x8LtU; I_I16x8GtS; I_I16x8GtU; I_I16x8LeS; I_I16x8LeU; I_I16x8GeS; I_I16x8GeU; I_I32x4Eq; I_I32x4Ne;
    I_I32x4LtS; I_I32x4LtU; I_I32x4GtS; I_I32x4GtU; I_I32x4LeS; I_I32x4LeU; I_I32x4GeS; I_I32x4GeU; I_I64x2Eq; I_I64x2Ne; I_I64x2LtS; I_I64x2GtS;
    I_I64x2LeS; I_I64x2GeS; I_F32x4Eq; I_F32x4Ne; I_F32x4Lt; I_F32x4Gt; I_F32x4Le; I_F32x4Ge; I_F64x2Eq; I_F64x2Ne; I_F64x2Lt; I_F64x2Gt; I_F64x2Le;
    I_F64x2Ge; I_V128Not; I_V128And; I_V128AndNot; I_V128Or; I_V128Xor; I_V128Bitselect; I_I8x16RelaxedLaneSelect; I_I16x8RelaxedLaneSelect;
    I_I32x4RelaxedLaneSelect; I_I64x2RelaxedLaneSelect; I_V128AnyTrue; I_I8x16Abs; I_I8x16Neg; I_I8x16Popcnt; I_I8x16AllTrue; I_I8x16Bitmask;
    I_I8x16NarrowI16x8S; I_I8x16NarrowI16x8U; I_I8x16Shl; I_I8x16ShrS; I_I8x16ShrU; I_I8x16Add; I_I8x16AddSatS; I_I8x16AddSatU; I_I8x16Sub;
    I_I8x16SubSatS; I_I8x16SubSatU; I_I8x16MinS; I_I8x16MinU; I_I8x16MaxS; I_I8x16MaxU; I_I8x16AvgrU; I_I16x8ExtaddPairwiseI8x16S;
    I_I16x8ExtaddPairwiseI8x16U; I_I16x8Abs; I_I16x8Neg; I_I16x8Q15MulrSatS; I_I16x8AllTrue; I_I16x8Bitmask; I_I16x8NarrowI32x4S; I_I16x8NarrowI32x4U;
    I_I16x8ExtendLowI8x16S; I_I16x8ExtendHighI8x16S; I_I16x8ExtendLowI8x16U; I_I16x8ExtendHighI8x16U; I_I16x8Shl; I_I16x8ShrS; I_I16x8ShrU; I_I16x8Add;
    I_I16x8AddSatS; I_I16x8AddSatU; I_I16x8Sub; I_I16x8SubSatS; I_I16x8SubSatU; I_I16x8Mul; I_I16x8MinS; I_I16x8MinU; I_I16x8MaxS; I_I16x8MaxU;
    I_I16x8AvgrU; I_I16x8ExtmulLowI8x16S; I_I16x8ExtmulHighI8x16S; I_I16x8ExtmulLowI8x16U; I_I16x8ExtmulHighI8x16U; I_I16x8RelaxedQ15MulrS;
    I_I16x8RelaxedDotSI8x16; I_I32x4RelaxedDotAddSI16x8; I_I32x4ExtaddPairwiseI16x8S; I_I32x4ExtaddPairwiseI16x8U; I_I32x4Abs; I_I32x4Neg;
    I_I32x4AllTrue; I_I32x4Bitmask; I_I32x4ExtendLowI16x8S; I_I32x4ExtendHighI16x8S; I_I32x4ExtendLowI16x8U; I_I32x4ExtendHighI16x8U; I_I32x4Shl;
    I_I32x4ShrS; I_I32x4ShrU; I_I32x4Add; I_I32x4Sub; I_I32x4Mul; I_I32x4MinS; I_I32x4MinU; I_I32x4MaxS; I_I32x4MaxU; I_I32x4DotI16x8S;
    I_I32x4ExtmulLowI16x8S; I_I32x4ExtmulHighI16x8S; I_I32x4ExtmulLowI16x8U; I_I32x4ExtmulHighI16x8U; I_I64x2Abs; I_I64x2Neg; I_I64x2AllTrue;
    I_I64x2Bitmask; I_I64x2ExtendLowI32x4S; I_I64x2ExtendHighI32x4S; I_I64x2ExtendLowI32x4U; I_I64x2ExtendHighI32x4U; I_I64x2Shl; I_I64x2ShrS;
    I_I64x2ShrU; I_I64x2Add; I_I64x2Sub; I_I64x2Mul; I_I64x2ExtmulLowI32x4S; I_I64x2ExtmulHighI32x4S; I_I64x2ExtmulLowI32x4U; I_I64x2ExtmulHighI32x4U;
    I_F32x4Ceil; I_F32x4Floor; I_F32x4Trunc; I_F32x4Nearest; I_F32x4Abs; I_F32x4Neg; I_F32x4Sqrt; I_F32x4Add; I_F32x4Sub; I_F32x4Mul; I_F32x4Div;
    I_F32x4Min; I_F32x4Max; I_F32x4PMin; I_F32x4PMax; I_F32x4RelaxedMin; I_F32x4RelaxedMax; I_F32x4RelaxedMAdd; I_F32x4RelaxedNMAdd; I_F64x2Ceil;
    I_F64x2Floor; I_F64x2Trunc; I_F64x2Nearest; I_F64x2Abs; I_F64x2Neg; I_F64x2Sqrt; I_F64x2Add; I_F64x2Sub; I_F64x2Mul; I_F64x2Div; I_F64x2Min;
    I_F64x2Max; I_F64x2PMin; I_F64x2PMax; I_F64x2RelaxedMin; I_F64x2RelaxedMax; I_F64x2RelaxedMAdd; I_F64x2RelaxedNMAdd; I_I32x4TruncSatF32x4S;
    I_I32x4TruncSatF32x4U; I_F32x4ConvertI32x4S; I_F32x4ConvertI32x4U; I_I32x4TruncSatF64x2SZero; I_I32x4TruncSatF64x2UZero; I_I32x4RelaxedTruncF32x4S;
    I_I32x4RelaxedTruncF32x4U; I_I32x4RelaxedTruncF64x2SZero; I_I32x4RelaxedTruncF64x2UZero; I_F64x2ConvertLowI32x4S; I_F64x2ConvertLowI32x4U;
    I_F32x4DemoteF64x2Zero; I_F64x2PromoteLowF32x4
  ].
Definition sample (i : instr) : instr := nth (N.to_nat (discriminant i)) samples I_Nop.
Lemma sample_name i : instr_name (sample i) = instr_name i.
Proof. destruct i; reflexivity. Qed.
Lemma disc_bound i : (N.to_nat (discriminant i) < List.length samples)%nat.
Proof. apply Nat.ltb_lt. destruct i; reflexivity. Qed.
Fixpoint distinct (l : list string) : bool := match l with [] => true | s :: l' => negb (existsb (String.eqb s) l') && distinct l' end.
Lemma distinct_NoDup l : distinct l = true -> NoDup l.
Proof.
  induction l as [|s l IH]; cbn; intros Hd; constructor; apply andb_prop in Hd as [H1 H2]; [|auto].
  intros Hi. apply negb_true_iff in H1. rewrite <- not_true_iff_false in H1. apply H1. apply existsb_exists. exists s. split; [exact Hi|apply String.eqb_refl].
Qed.
Lemma names_distinct : NoDup (map instr_name samples).
Proof. apply distinct_NoDup. vm_compute. reflexivity. Qed.
Lemma name_disc i j : instr_name i = instr_name j -> discriminant i = discriminant j.
Proof.
  intros E. apply N2Nat.inj. apply (proj1 (NoDup_nth (map instr_name samples) (instr_name I_Nop)) names_distinct); [rewrite map_length; apply disc_bound..|].
  rewrite !map_nth. change (instr_name (sample i) = instr_name (sample j)). rewrite !sample_name. exact E.
Qed.
(** the kinds of the operands depend on the variant only *)
Definition okind (o : operand) : N * string :=
  match o with
  | O_idx s _ => (0, s) | O_u32 _ => (1, "") | O_int _ => (2, "") | O_f32 _ => (3, "") | O_f64 _ => (4, "") | O_lane _ => (5, "")
  | O_bytes _ => (6, "") | O_lanes _ => (7, "") | O_labels _ => (8, "") | O_types _ => (9, "") | O_reftype _ => (10, "") | O_heaptype _ => (11, "") | O_memarg _ => (12, "")
  end%N.
Lemma sample_kinds i : map okind (operands (sample i)) = map okind (operands i).
Proof. destruct i; reflexivity. Qed.
Lemma same_kinds i j : discriminant i = discriminant j -> map okind (operands i) = map okind (operands j).
Proof. intros E. rewrite <- (sample_kinds i), <- (sample_kinds j). unfold sample. rewrite E. reflexivity. Qed.
Definition as_field (o : operand) : field :=
  match o with
  | O_idx _ x => P_u32 x | O_u32 n => P_u32 n | O_int z => P_int z | O_f32 b => P_f32 b | O_f64 b => P_f64 b | O_lane b => P_byte b
  | O_bytes l => P_bytes l | O_lanes l => P_bytes l | O_labels l => P_indices l | O_types t => P_types t | O_reftype t => P_reftype t
  | O_heaptype t => P_heaptype t | O_memarg m => P_memarg m
  end.
Lemma operands_fields i : fields i = map as_field (operands i).
Proof. destruct i; reflexivity. Qed.
Definition field_plain (f : field) : field :=
  match f with P_f32 b => P_f32 (plain32 b) | P_f64 b => P_f64 (plain64 b) | f => f end.
Lemma plain_fields i : fields (instr_plain i) = map field_plain (fields i).
Proof. destruct i; reflexivity. Qed.
Lemma plain_disc i : discriminant (instr_plain i) = discriminant i.
Proof. destruct i; reflexivity. Qed.
Lemma plain_nested i : nested (instr_plain i) = nested i.
Proof. destruct i; reflexivity. Qed.
Lemma names_atoms i : tokenb (instr_name i) = true.
Proof. destruct i; reflexivity. Qed.

Lemma plain32_idem b : plain32 (plain32 b) = plain32 b.
Proof. unfold plain32 at 2 3. destruct (value 23 8 b) eqn:E; unfold plain32; rewrite ?E; reflexivity. Qed.
Lemma plain64_idem b : plain64 (plain64 b) = plain64 b.
Proof. unfold plain64 at 2 3. destruct (value 52 11 b) eqn:E; unfold plain64; rewrite ?E; reflexivity. Qed.

(** ** modules *)
#[local] Arguments expr_plain : simpl never.
#[local] Arguments d_expr : simpl never.
Section Module_.
  Context {T : Texts} (HT : readable T).

  (** a value can be read off its tree, up to NaNs *)
  Record Shows {A} (d : A -> dtree) (c : A -> A) : Prop := { sh_wf : forall a, wf p (d a); sh_same : forall a, d (c a) = d a; sh_inj : forall a b, d a = d b -> c a = c b }.

  Lemma operand_wf i o : In o (operands i) -> wf p (d_operand o).
  Proof.
    intros Hi. assert (HK : forallb (fun k => match fst k with 0%N => tokenb (snd k) | _ => true end) (map okind (operands i)) = true) by (destruct i; reflexivity).
    rewrite forallb_forall in HK. specialize (HK (okind o) (in_map _ _ _ Hi)).
    destruct o; cbn [okind fst snd] in HK; cbn [d_operand]; [apply (@rd_wf _ _ _ (reads_idx _ HK))|try (apply rd_wf); try (left; apply HT)..].
  Qed.
  Lemma operand_inj o o' : okind o = okind o' -> d_operand o = d_operand o' -> field_plain (as_field o) = field_plain (as_field o').
  Proof.
    destruct o, o'; intros K E; try discriminate K; cbn [d_operand as_field field_plain] in *.
    all: try (f_equal; first [apply rd_inj in E; exact E]).
    - injection K as ->. unfold d_idx in E. peel E. read_back. congruence.
    - apply (f_equal tname) in E. cbn [tname] in E. f_equal. apply HT. exact E.
    - apply (f_equal tname) in E. cbn [tname] in E. f_equal. apply HT. exact E.
  Qed.
  Lemma operands_inj l l' : map okind l = map okind l' -> map d_operand l = map d_operand l' -> map field_plain (map as_field l) = map field_plain (map as_field l').
  Proof.
    revert l'. induction l as [|o l IH]; intros [|o' l'] K E; try discriminate K; [reflexivity|]. cbn [map] in *. apply cons_inj in K as [K1 K]. apply cons_inj in E as [E1 E].
    rewrite (IH _ K E), (operand_inj _ _ K1 E1). reflexivity.
  Qed.
  Lemma instr_tname i : tname (d_instr i) = instr_name i.
  Proof. destruct i; reflexivity. Qed.
  Lemma flat_tree i : nested i = false -> d_instr i = d_variant (instr_name i) (map d_operand (operands i)).
  Proof. destruct i; intros H; try discriminate H; reflexivity. Qed.
  Lemma variant_kids n l : kids (d_variant n l) = l.
  Proof. destruct l; reflexivity. Qed.
  Lemma same_variant i j : d_instr i = d_instr j -> discriminant i = discriminant j.
  Proof. intros E. apply name_disc. rewrite <- !instr_tname, E. reflexivity. Qed.
  Lemma flat_inj i j : nested i = false -> d_instr i = d_instr j -> instr_plain i = instr_plain j.
  Proof.
    intros Hi E. pose proof (same_variant _ _ E) as Hd. assert (Hj : nested j = false) by (rewrite nested_by_disc, <- Hd, <- nested_by_disc; exact Hi).
    apply same_instr; [rewrite plain_nested; exact Hi|rewrite !plain_disc; exact Hd|]. rewrite !plain_fields, !operands_fields.
    apply operands_inj; [apply same_kinds; exact Hd|]. rewrite (flat_tree i Hi), (flat_tree j Hj) in E. apply (f_equal kids) in E. rewrite !variant_kids in E. exact E.
  Qed.
  Lemma flat_wf i : nested i = false -> wf p (d_instr i).
  Proof.
    intros Hi. rewrite (flat_tree i Hi). pose proof (names_atoms i) as Ha. unfold d_variant. destruct (map d_operand (operands i)) as [|t l] eqn:E; [apply atomb_ok; exact Ha|].
    apply wf_tuple. split; [apply tokenb_ok; exact Ha|]. split; [discriminate|]. rewrite <- E. apply Forall_map. apply Forall_forall. exact (operand_wf i).
  Qed.
  Lemma flat_same i : nested i = false -> d_instr (instr_plain i) = d_instr i.
  Proof.
    intros Hi. rewrite (flat_tree i Hi). destruct i; try discriminate Hi; try reflexivity; cbn [instr_plain d_instr instr_name operands map d_operand]; do 3 f_equal; apply HT.
    - apply plain32_idem.
    - apply plain64_idem.
  Qed.
  Lemma list_plain_inj l l' : Forall (fun i => forall j, d_instr i = d_instr j -> instr_plain i = instr_plain j) l -> DList (map d_instr l) = DList (map d_instr l') -> map instr_plain l = map instr_plain l'.
  Proof.
    intros H E. apply dlist_inj in E. revert l' E. induction H as [|i l Hi _ IH]; intros [|j l'] E; try discriminate E; [reflexivity|]. cbn [map] in *. apply cons_inj in E as [E1 E].
    rewrite (IH _ E), (Hi _ E1). reflexivity.
  Qed.
  Lemma block_of i : nested i = true -> match i with I_Block _ _ | I_Loop _ _ | I_If _ _ _ | I_TryTable _ _ _ => True | _ => False end.
  Proof. destruct i; intros H; try discriminate H; exact I. Qed.
  Lemma instr_inj i : forall j, d_instr i = d_instr j -> instr_plain i = instr_plain j.
  Proof.
    induction i as [i Hi|t l IH|t l IH|t l o IH IHo|t c l IH] using instr_nested_ind; intros j E; [exact (flat_inj i j Hi E)| | | |];
      (pose proof (same_variant _ _ E) as Hd; assert (Hj : nested j = true) by (rewrite nested_by_disc, <- Hd, <- nested_by_disc; reflexivity); apply block_of in Hj;
       destruct j; try destruct Hj; try discriminate Hd; clear Hd); cbn [d_instr instr_plain] in *; peel E; read_back; subst; f_equal; try (apply list_plain_inj; assumption).
    destruct o as [o|], o0 as [o'|]; cbn [option_map] in *.
    - apply tuple_inj in F1. apply cons_inj in F1 as [F1 _]. rewrite (list_plain_inj o o' (IHo _ eq_refl) F1). reflexivity.
    - match goal with F : DTuple "Some" _ = _ |- _ => clash F end.
    - match goal with F : _ = DTuple "Some" _ |- _ => clash F end.
    - reflexivity.
  Qed.
  Lemma instr_wf i : wf p (d_instr i).
  Proof.
    assert (HL : forall l, Forall (fun i => wf p (d_instr i)) l -> wf p (DList (map d_instr l))) by (intros l H; apply wf_list; apply Forall_map; exact H).
    induction i as [i Hi|t l IH|t l IH|t l o IH IHo|t c l IH] using instr_nested_ind; [exact (flat_wf i Hi)| | | |]; cbn [d_instr]; wf_all; auto.
    destruct o; wf_all. apply HL. apply IHo. reflexivity.
  Qed.
  Lemma instr_same i : d_instr (instr_plain i) = d_instr i.
  Proof.
    assert (HL : forall l, Forall (fun i => d_instr (instr_plain i) = d_instr i) l -> map d_instr (map instr_plain l) = map d_instr l).
    { intros l H. rewrite map_map. apply map_ext_in. rewrite Forall_forall in H. exact H. }
    induction i as [i Hi|t l IH|t l IH|t l o IH IHo|t c l IH] using instr_nested_ind; [exact (flat_same i Hi)| | | |]; cbn [d_instr instr_plain]; rewrite (HL _ IH); [reflexivity|reflexivity| |reflexivity].
    destruct o as [o|]; [|reflexivity]. cbn [option_map]. rewrite (HL o) by (apply IHo; reflexivity). reflexivity.
  Qed.
  Lemma shows_instr : Shows d_instr instr_plain.
  Proof. split; [exact instr_wf|exact instr_same|exact instr_inj]. Qed.
  Lemma shows_list {A} (d : A -> dtree) c : Shows d c -> Shows (d_list d) (map c).
  Proof.
    intros [Hw Hs Hi]. split.
    - intros l. apply wf_list. apply Forall_map. apply Forall_forall. auto.
    - intros l. unfold d_list. rewrite map_map. f_equal. apply map_ext. exact Hs.
    - intros l l' E. apply dlist_inj in E. revert l' E. induction l as [|x a IH]; intros [|y b] E; try discriminate E; [reflexivity|]. cbn [map] in *. apply cons_inj in E as [E1 E].
      rewrite (Hi _ _ E1), (IH _ E). reflexivity.
  Qed.
  Lemma shows_expr : Shows d_expr expr_plain.
  Proof. exact (shows_list _ _ shows_instr). Qed.

  Instance reads_string : Reads d_string.
  Proof.
    split; [intros s; right; left; apply HT|]. intros a b E. apply (f_equal tname) in E. cbn [tname d_string] in E. apply HT. exact E.
  Qed.
  Instance reads_import : Reads d_import. Proof. structure d_import. Qed.
  Instance reads_export : Reads d_export. Proof. structure d_export. Qed.
  Instance reads_custom : Reads d_custom. Proof. structure d_custom. Qed.

  Ltac wf_shown := repeat first [progress wf_all|apply shows_expr|match goal with H : Shows _ _ |- _ => apply H end].
  Lemma shows_func : Shows d_func func_plain.
  Proof.
    split.
    - intros []; unfold d_func; wf_shown.
    - intros []. unfold d_func, func_plain; cbn. rewrite (sh_same _ _ shows_expr). reflexivity.
    - intros [] [] E. unfold d_func in E. cbn in E. peel E. apply (sh_inj _ _ shows_expr) in F1. read_back. subst. unfold func_plain; cbn. rewrite F1. reflexivity.
  Qed.
  Lemma shows_table : Shows d_table table_plain.
  Proof.
    split.
    - intros []; unfold d_table; wf_shown.
    - intros []. unfold d_table, table_plain; cbn. rewrite (sh_same _ _ shows_expr). reflexivity.
    - intros [] [] E. unfold d_table in E. cbn in E. peel E. apply (sh_inj _ _ shows_expr) in F0. read_back. subst. unfold table_plain; cbn. rewrite F0. reflexivity.
  Qed.
  Lemma shows_global : Shows d_global global_plain.
  Proof.
    split.
    - intros []; unfold d_global; wf_shown.
    - intros []. unfold d_global, global_plain; cbn. rewrite (sh_same _ _ shows_expr). reflexivity.
    - intros [] [] E. unfold d_global in E. cbn in E. peel E. apply (sh_inj _ _ shows_expr) in F0. read_back. subst. unfold global_plain; cbn. rewrite F0. reflexivity.
  Qed.
  Lemma shows_datamode : Shows d_datamode datamode_plain.
  Proof.
    split.
    - intros []; unfold d_datamode; wf_shown.
    - intros []; [reflexivity|]. unfold d_datamode, datamode_plain. rewrite (sh_same _ _ shows_expr). reflexivity.
    - intros [] [] E; unfold d_datamode in E; try clash E; [reflexivity|]. peel E. apply (sh_inj _ _ shows_expr) in F0. read_back. subst. unfold datamode_plain. rewrite F0. reflexivity.
  Qed.
  Lemma shows_elemmode : Shows d_elemmode elemmode_plain.
  Proof.
    split.
    - intros []; unfold d_elemmode; wf_shown.
    - intros []; try reflexivity. unfold d_elemmode, elemmode_plain. rewrite (sh_same _ _ shows_expr). reflexivity.
    - intros [] [] E; unfold d_elemmode in E; try clash E; try reflexivity. peel E. apply (sh_inj _ _ shows_expr) in F0. read_back. subst. unfold elemmode_plain. rewrite F0. reflexivity.
  Qed.
  Lemma shows_data : Shows d_data data_plain.
  Proof.
    pose proof shows_datamode. split.
    - intros []; unfold d_data; wf_shown.
    - intros []. unfold d_data, data_plain; cbn [Ast.d_init Ast.d_mode]. rewrite (sh_same _ _ shows_datamode). reflexivity.
    - intros [] [] E. unfold d_data in E. cbn [Ast.d_init Ast.d_mode] in E. peel E. apply (sh_inj _ _ shows_datamode) in F0. read_back. subst. unfold data_plain; cbn [Ast.d_init Ast.d_mode]. rewrite F0. reflexivity.
  Qed.
  Lemma shows_elem : Shows d_elem elem_plain.
  Proof.
    pose proof shows_elemmode. pose proof (shows_list _ _ shows_expr). split.
    - intros []; unfold d_elem; wf_shown.
    - intros []. unfold d_elem, elem_plain; cbn [Ast.e_type Ast.e_init Ast.e_mode]. rewrite (sh_same _ _ shows_elemmode), (sh_same _ _ (shows_list _ _ shows_expr)). reflexivity.
    - intros [] [] E. unfold d_elem in E. cbn [Ast.e_type Ast.e_init Ast.e_mode] in E. peel E. apply (sh_inj _ _ shows_elemmode) in F1. apply (sh_inj _ _ (shows_list _ _ shows_expr)) in F0. read_back. subst. unfold elem_plain; cbn [Ast.e_type Ast.e_init Ast.e_mode]. rewrite F0, F1. reflexivity.
  Qed.
  Lemma module_wf m : wf p (d_module m).
  Proof.
    pose proof (shows_list _ _ shows_func). pose proof (shows_list _ _ shows_table). pose proof (shows_list _ _ shows_global). pose proof (shows_list _ _ shows_elem). pose proof (shows_list _ _ shows_data).
    unfold d_module. wf_shown.
  Qed.
  Lemma module_same m : d_module (module_plain m) = d_module m.
  Proof.
    unfold d_module, module_plain. cbn [version parsed_section_kinds section_headers custom_sections types funcs tables mems globals elems data_count datas start imports exports tags].
    rewrite (sh_same _ _ (shows_list _ _ shows_func)), (sh_same _ _ (shows_list _ _ shows_table)), (sh_same _ _ (shows_list _ _ shows_global)), (sh_same _ _ (shows_list _ _ shows_elem)), (sh_same _ _ (shows_list _ _ shows_data)). reflexivity.
  Qed.
  Lemma module_inj m m' : d_module m = d_module m' -> module_plain m = module_plain m'.
  Proof.
    intros E. unfold d_module in E. peel E.
    repeat match goal with
           | E : d_list d_func _ = _ |- _ => apply (sh_inj _ _ (shows_list _ _ shows_func)) in E
           | E : d_list d_table _ = _ |- _ => apply (sh_inj _ _ (shows_list _ _ shows_table)) in E
           | E : d_list d_global _ = _ |- _ => apply (sh_inj _ _ (shows_list _ _ shows_global)) in E
           | E : d_list d_elem _ = _ |- _ => apply (sh_inj _ _ (shows_list _ _ shows_elem)) in E
           | E : d_list d_data _ = _ |- _ => apply (sh_inj _ _ (shows_list _ _ shows_data)) in E
           end.
    read_back. unfold module_plain.
    repeat match goal with E : _ = _ |- _ => rewrite E; clear E end. reflexivity.
  Qed.
  Theorem compact_module_exact m m' : compact_module m = compact_module m' <-> module_plain m = module_plain m'.
  Proof.
    split; intros E.
    - apply module_inj. apply (compact_inj p); [apply module_wf..|exact E].
    - unfold compact_module. rewrite <- (module_same m), <- (module_same m'), E. reflexivity.
  Qed.
  Theorem debug_module_exact m m' : debug_module m = debug_module m' <-> module_plain m = module_plain m'.
  Proof.
    split; intros E.
    - apply module_inj. apply (pretty_inj p); [apply module_wf..|exact E].
    - unfold debug_module. rewrite <- (module_same m), <- (module_same m'), E. reflexivity.
  Qed.
End Module_.
End Style.
Lemma module_line (T : Texts) m : readable T -> one_line (compact_module m).
Proof. intros HT. apply compact_line. exact (module_wf (p := false) HT m). Qed.

(** ** NaNs *)
Definition float_plain (c : float) : float := match c with Single b => Single (plain32 b) | Double b => Double (plain64 b) end.
Lemma plain_nan c : float_value (float_plain c) = NaN <-> float_value c = NaN.
Proof.
  destruct c as [b|b]; cbn [float_plain float_value]; unfold plain32, plain64; match goal with |- context [match ?x with _ => _ end] => destruct x eqn:E end; rewrite ?E; try (split; intros H; exact H); split; reflexivity.
Qed.
Lemma plain_id c : float_value c <> NaN -> float_plain c = c.
Proof.
  destruct c as [b|b]; cbn [float_plain float_value]; unfold plain32, plain64; intros H; match goal with |- context [match ?x with _ => _ end] => destruct x eqn:E end; congruence.
Qed.
Lemma flat_map_plain {A} (fl : A -> list float) (c : A -> A) l : Forall (fun a => fl (c a) = map float_plain (fl a)) l -> flat_map fl (map c l) = map float_plain (flat_map fl l).
Proof. induction 1 as [|a l H _ IH]; [reflexivity|]. cbn [map flat_map]. rewrite H, IH, map_app. reflexivity. Qed.
Lemma instr_floats_plain i : instr_floats (instr_plain i) = map float_plain (instr_floats i).
Proof.
  induction i as [i Hi|t l IH|t l IH|t l o IH IHo|t c l IH] using instr_nested_ind.
  - destruct i; try discriminate Hi; reflexivity.
  - apply (flat_map_plain _ _ _ IH).
  - apply (flat_map_plain _ _ _ IH).
  - cbn [instr_floats instr_plain option_map]. destruct o as [o|]; cbn [option_map]; [|apply (flat_map_plain _ _ _ IH)].
    rewrite (flat_map_plain _ _ _ IH), (flat_map_plain _ _ _ (IHo o eq_refl)), map_app. reflexivity.
  - apply (flat_map_plain _ _ _ IH).
Qed.
Lemma all_plain {A} (fl : A -> list float) (c : A -> A) : (forall a, fl (c a) = map float_plain (fl a)) -> forall l, flat_map fl (map c l) = map float_plain (flat_map fl l).
Proof. intros H l. apply flat_map_plain. apply Forall_forall. auto. Qed.
Lemma expr_floats_plain e : expr_floats (expr_plain e) = map float_plain (expr_floats e).
Proof. exact (all_plain _ _ instr_floats_plain e). Qed.
Lemma module_floats_plain m : module_floats (module_plain m) = map float_plain (module_floats m).
Proof.
  unfold module_floats, module_plain. cbn [funcs tables globals elems datas]. rewrite !map_app.
  repeat f_equal.
  - apply (all_plain (fun f => expr_floats (f_body f))). intros a. apply expr_floats_plain.
  - apply (all_plain (fun f => expr_floats (t_init f))). intros a. apply expr_floats_plain.
  - apply (all_plain (fun f => expr_floats (g_init f))). intros a. apply expr_floats_plain.
  - apply (all_plain (fun e => flat_map expr_floats (e_init e) ++ match e_mode e with EM_Active _ o => expr_floats o | _ => [] end)%list).
    intros [t l k]. cbn [elem_plain e_init e_mode]. rewrite map_app, (all_plain _ _ expr_floats_plain). f_equal. destruct k; cbn [elemmode_plain]; try reflexivity. apply expr_floats_plain.
  - apply (all_plain (fun d => match d_mode d with DM_Active _ o => expr_floats o | _ => [] end)).
    intros [l k]. cbn [data_plain Ast.d_mode]. destruct k; cbn [datamode_plain]; try reflexivity. apply expr_floats_plain.
Qed.
Lemma no_nans_plain m : no_nans (module_plain m) <-> no_nans m.
Proof.
  unfold no_nans. rewrite module_floats_plain, Forall_map. split; apply Forall_impl; intros c H E; apply H; apply plain_nan; exact E.
Qed.
Definition Clean (l : list float) : Prop := Forall (fun c => float_value c <> NaN) l.
Lemma clean_list {A} (fl : A -> list float) (c : A -> A) l : (Forall (fun a => Clean (fl a) -> c a = a) l) -> Clean (flat_map fl l) -> map c l = l.
Proof.
  intros H HC. apply Forall_flat_map in HC. rewrite Forall_forall in *. rewrite <- (map_id l) at 2. apply map_ext_in. intros a Hi. apply (H a Hi). exact (HC a Hi).
Qed.
Lemma clean_all {A} (fl : A -> list float) (c : A -> A) : (forall a, Clean (fl a) -> c a = a) -> forall l, Clean (flat_map fl l) -> map c l = l.
Proof. intros H l. apply clean_list. apply Forall_forall. auto. Qed.
Lemma clean_instr i : Clean (instr_floats i) -> instr_plain i = i.
Proof.
  induction i as [i Hi|t l IH|t l IH|t l o IH IHo|t c l IH] using instr_nested_ind; intros HC.
  - destruct i; try discriminate Hi; try reflexivity; inversion HC as [|c l Hc _]; subst; apply plain_id in Hc; cbn in *; congruence.
  - cbn [instr_plain]. rewrite (clean_list _ _ _ IH HC). reflexivity.
  - cbn [instr_plain]. rewrite (clean_list _ _ _ IH HC). reflexivity.
  - cbn [instr_plain instr_floats] in *. destruct o as [o|]; cbn [option_map].
    + apply Forall_app in HC as [HC1 HC2]. rewrite (clean_list _ _ _ IH HC1), (clean_list _ _ _ (IHo o eq_refl) HC2). reflexivity.
    + rewrite (clean_list _ _ _ IH HC). reflexivity.
  - cbn [instr_plain]. rewrite (clean_list _ _ _ IH HC). reflexivity.
Qed.
Lemma clean_expr e : Clean (expr_floats e) -> expr_plain e = e.
Proof. exact (clean_all _ _ clean_instr e). Qed.
Lemma no_nans_id m : no_nans m -> module_plain m = m.
Proof.
  unfold no_nans, module_floats. rewrite !Forall_app. intros (H1 & H2 & H3 & H4 & H5). unfold module_plain.
  rewrite (clean_all (fun f => expr_floats (f_body f)) func_plain) by (intros [] ? || exact H1; unfold func_plain; cbn [Ast.f_type Ast.f_locals Ast.f_body] in *; rewrite clean_expr by assumption; reflexivity).
  rewrite (clean_all (fun f => expr_floats (t_init f)) table_plain) by (intros [] ? || exact H2; unfold table_plain; cbn [Ast.t_type Ast.t_init] in *; rewrite clean_expr by assumption; reflexivity).
  rewrite (clean_all (fun f => expr_floats (g_init f)) global_plain) by (intros [] ? || exact H3; unfold global_plain; cbn [Ast.g_type Ast.g_init] in *; rewrite clean_expr by assumption; reflexivity).
  rewrite (clean_all (fun e => flat_map expr_floats (e_init e) ++ match e_mode e with EM_Active _ o => expr_floats o | _ => [] end)%list elem_plain).
  2: { intros [t l k] HC. apply Forall_app in HC as [HC1 HC2]. unfold elem_plain; cbn [e_type e_init e_mode] in *. rewrite (clean_all _ _ clean_expr _ HC1). f_equal. destruct k; cbn [elemmode_plain]; try reflexivity. rewrite clean_expr by assumption. reflexivity. }
  2: exact H4.
  rewrite (clean_all (fun d => match d_mode d with DM_Active _ o => expr_floats o | _ => [] end) data_plain).
  2: { intros [l k] HC. unfold data_plain; cbn [Ast.d_init Ast.d_mode] in *. f_equal. destruct k; cbn [datamode_plain]; try reflexivity. rewrite clean_expr by assumption. reflexivity. }
  2: exact H5.
  destruct m. reflexivity.
Qed.
