(** C63: Model/Debug.v and Model/DebugError.v print what Spec/Shown.v says.
    The lemmas without a name of their own are generated: one per type. *)
From Verif Require Import Model.Prelude Model.Io Model.Ast Model.Errors Model.Display Model.Debug Model.DebugError Model.Cli.
From Verif Require Import Spec.Debug Spec.Shown Spec.Outline Proofs.Pretty Proofs.Equal Proofs.Debug Proofs.DebugError Proofs.Outline.
From Coq Require Import List String Strings.Byte.
Local Open Scope string_scope.
Create HintDb shown.

Lemma s_list {A} (d s : A -> dtree) l : (forall x, d x = s x) -> d_list d l = DList (map s l).
Proof. intros H. unfold d_list. f_equal. apply map_ext. exact H. Qed.
Lemma s_map {A} (d s : A -> dtree) l : (forall x, d x = s x) -> DList (map d l) = DList (map s l).
Proof. exact (s_list d s l). Qed.
Lemma s_option {A} (d s : A -> dtree) o : (forall x, d x = s x) -> d_option d o = match o with None => DAtom "None" | Some y => DTuple "Some" [s y] end.
Proof. intros H. destruct o; [|reflexivity]. cbn [d_option]. rewrite H. reflexivity. Qed.
#[local] Hint Resolve s_list s_map s_option : shown.

Ltac fields := repeat first [reflexivity | solve [auto with shown nocore] | progress f_equal].

Section Shows.
Context {T : Texts}.

Lemma s_CustomSection x : d_custom x = show_CustomSection x.
Proof. reflexivity. Qed.
Hint Resolve s_CustomSection : shown.
Lemma s_NumType x : d_numtype x = show_NumType x.
Proof. unfold d_numtype, show_NumType; first [solve [fields] | destruct x; fields]. Qed.
Hint Resolve s_NumType : shown.
Lemma s_AbsHeapType x : d_absheaptype x = show_AbsHeapType x.
Proof. unfold d_absheaptype, show_AbsHeapType; first [solve [fields] | destruct x; fields]. Qed.
Hint Resolve s_AbsHeapType : shown.
Lemma s_HeapType x : d_heaptype x = show_HeapType x.
Proof. unfold d_heaptype, show_HeapType; first [solve [fields] | destruct x; fields]. Qed.
Hint Resolve s_HeapType : shown.
Lemma s_RefType x : d_reftype x = show_RefType x.
Proof. unfold d_reftype, show_RefType; first [solve [fields] | destruct x; fields]. Qed.
Hint Resolve s_RefType : shown.
Lemma s_VecType x : d_vectype x = show_VecType x.
Proof. unfold d_vectype, show_VecType; first [solve [fields] | destruct x; fields]. Qed.
Hint Resolve s_VecType : shown.
Lemma s_ValType x : d_valtype x = show_ValType x.
Proof. unfold d_valtype, show_ValType; first [solve [fields] | destruct x; fields]. Qed.
Hint Resolve s_ValType : shown.
Lemma s_BlockType x : d_blocktype x = show_BlockType x.
Proof. unfold d_blocktype, show_BlockType; first [solve [fields] | destruct x; fields]. Qed.
Hint Resolve s_BlockType : shown.
Lemma s_Catch x : d_catch x = show_Catch x.
Proof. unfold d_catch, show_Catch; first [solve [fields] | destruct x; fields]. Qed.
Hint Resolve s_Catch : shown.
Lemma s_LaneIdx x : d_lane x = show_LaneIdx x.
Proof. reflexivity. Qed.
Hint Resolve s_LaneIdx : shown.
Lemma s_Memarg x : d_memarg x = show_Memarg x.
Proof. unfold d_memarg, show_Memarg; first [solve [fields] | destruct x; fields]. Qed.
Hint Resolve s_Memarg : shown.
Lemma s_types o : d_option (d_list d_valtype) o = match o with None => DAtom "None" | Some y => DTuple "Some" [DList (map (fun y1 => show_ValType y1) y)] end.
Proof. destruct o; [|reflexivity]. cbn [d_option]. rewrite (s_list _ _ _ s_ValType). reflexivity. Qed.
Lemma s_below (l : list instr) : Forall (fun i => d_instr i = show_Instruction i) l -> map d_instr l = map (fun y => show_Instruction y) l.
Proof. intros H. induction H as [|i l E _ IH]; [reflexivity|]. cbn [map]. rewrite E, IH. reflexivity. Qed.
Lemma s_Instruction i : d_instr i = show_Instruction i.
Proof.
  induction i as [i Hi|t l IH|t l IH|t l o IH IHo|t c l IH] using instr_nested_ind.
  - destruct i; try discriminate Hi; try reflexivity; cbn [d_instr show_Instruction d_variant instr_name operands map d_operand];
      rewrite ?s_RefType, ?s_HeapType, ?s_types, ?s_Memarg; reflexivity.
  - cbn [d_instr show_Instruction]. rewrite s_BlockType, (s_below l IH). reflexivity.
  - cbn [d_instr show_Instruction]. rewrite s_BlockType, (s_below l IH). reflexivity.
  - cbn [d_instr show_Instruction]. rewrite s_BlockType, (s_below l IH). destruct o as [o|]; [|reflexivity]. rewrite (s_below o (IHo o eq_refl)). reflexivity.
  - cbn [d_instr show_Instruction]. rewrite s_BlockType, (s_below l IH), (s_list _ _ _ s_Catch). reflexivity.
Qed.
Lemma s_expr e : d_expr e = DList (map (fun y => show_Instruction y) e).
Proof. exact (s_list _ _ e s_Instruction). Qed.
Hint Resolve s_expr : shown.
Hint Resolve s_Instruction : shown.
Lemma s_DataMode x : d_datamode x = show_DataMode x.
Proof. unfold d_datamode, show_DataMode; first [solve [fields] | destruct x; fields]. Qed.
Hint Resolve s_DataMode : shown.
Lemma s_Data x : d_data x = show_Data x.
Proof. unfold d_data, show_Data; first [solve [fields] | destruct x; fields]. Qed.
Hint Resolve s_Data : shown.
Lemma s_ElemMode x : d_elemmode x = show_ElemMode x.
Proof. unfold d_elemmode, show_ElemMode; first [solve [fields] | destruct x; fields]. Qed.
Hint Resolve s_ElemMode : shown.
Lemma s_Elem x : d_elem x = show_Elem x.
Proof. unfold d_elem, show_Elem; first [solve [fields] | destruct x; fields]. Qed.
Hint Resolve s_Elem : shown.
Lemma s_ExternIdx x : d_externidx x = show_ExternIdx x.
Proof. unfold d_externidx, show_ExternIdx; first [solve [fields] | destruct x; fields]. Qed.
Hint Resolve s_ExternIdx : shown.
Lemma s_Export x : d_export x = show_Export x.
Proof. unfold d_export, show_Export; first [solve [fields] | destruct x; fields]. Qed.
Hint Resolve s_Export : shown.
Lemma s_Func x : d_func x = show_Func x.
Proof. unfold d_func, show_Func; first [solve [fields] | destruct x; fields]. Qed.
Hint Resolve s_Func : shown.
Lemma s_Mut x : d_mut x = show_Mut x.
Proof. unfold d_mut, show_Mut; first [solve [fields] | destruct x; fields]. Qed.
Hint Resolve s_Mut : shown.
Lemma s_GlobalType x : d_globaltype x = show_GlobalType x.
Proof. unfold d_globaltype, show_GlobalType; first [solve [fields] | destruct x; fields]. Qed.
Hint Resolve s_GlobalType : shown.
Lemma s_Global x : d_global x = show_Global x.
Proof. unfold d_global, show_Global; first [solve [fields] | destruct x; fields]. Qed.
Hint Resolve s_Global : shown.
Lemma s_AddrType x : d_addrtype x = show_AddrType x.
Proof. unfold d_addrtype, show_AddrType; first [solve [fields] | destruct x; fields]. Qed.
Hint Resolve s_AddrType : shown.
Lemma s_Limits x : d_limits x = show_Limits x.
Proof. unfold d_limits, show_Limits; first [solve [fields] | destruct x; fields]. Qed.
Hint Resolve s_Limits : shown.
Lemma s_MemType x : d_memtype x = show_MemType x.
Proof. unfold d_memtype, show_MemType; first [solve [fields] | destruct x; fields]. Qed.
Hint Resolve s_MemType : shown.
Lemma s_TableType x : d_tabletype x = show_TableType x.
Proof. unfold d_tabletype, show_TableType; first [solve [fields] | destruct x; fields]. Qed.
Hint Resolve s_TableType : shown.
Lemma s_TagType x : d_tagtype x = show_TagType x.
Proof. unfold d_tagtype, show_TagType; first [solve [fields] | destruct x; fields]. Qed.
Hint Resolve s_TagType : shown.
Lemma s_ExternType x : d_externtype x = show_ExternType x.
Proof. unfold d_externtype, show_ExternType; first [solve [fields] | destruct x; fields]. Qed.
Hint Resolve s_ExternType : shown.
Lemma s_Import x : d_import x = show_Import x.
Proof. unfold d_import, show_Import; first [solve [fields] | destruct x; fields]. Qed.
Hint Resolve s_Import : shown.
Lemma s_PackType x : d_packtype x = show_PackType x.
Proof. unfold d_packtype, show_PackType; first [solve [fields] | destruct x; fields]. Qed.
Hint Resolve s_PackType : shown.
Lemma s_StorageType x : d_storagetype x = show_StorageType x.
Proof. unfold d_storagetype, show_StorageType; first [solve [fields] | destruct x; fields]. Qed.
Hint Resolve s_StorageType : shown.
Lemma s_FieldType x : d_fieldtype x = show_FieldType x.
Proof. unfold d_fieldtype, show_FieldType; first [solve [fields] | destruct x; fields]. Qed.
Hint Resolve s_FieldType : shown.
Lemma s_CompType x : d_comptype x = show_CompType x.
Proof. unfold d_comptype, show_CompType; first [solve [fields] | destruct x; fields]. Qed.
Hint Resolve s_CompType : shown.
Lemma s_SubType x : d_subtype x = show_SubType x.
Proof. unfold d_subtype, show_SubType; first [solve [fields] | destruct x; fields]. Qed.
Hint Resolve s_SubType : shown.
Lemma s_RecType x : d_rectype x = show_RecType x.
Proof. unfold d_rectype, show_RecType; first [solve [fields] | destruct x; fields]. Qed.
Hint Resolve s_RecType : shown.
Lemma s_SectionKind x : d_kind x = show_SectionKind x.
Proof. unfold d_kind, show_SectionKind; first [solve [fields] | destruct x; fields]. Qed.
Hint Resolve s_SectionKind : shown.
Lemma s_SectionHeader x : d_header x = show_SectionHeader x.
Proof. unfold d_header, show_SectionHeader; first [solve [fields] | destruct x; fields]. Qed.
Hint Resolve s_SectionHeader : shown.
Lemma s_Table x : d_table x = show_Table x.
Proof. unfold d_table, show_Table; first [solve [fields] | destruct x; fields]. Qed.
Hint Resolve s_Table : shown.
Lemma s_Module x : d_module x = show_Module x.
Proof. unfold d_module, show_Module; first [solve [fields] | destruct x; fields]. Qed.
Hint Resolve s_Module : shown.
Lemma s_DecodeU32Error x : d_DecodeU32Error x = show_DecodeU32Error x.
Proof. unfold d_DecodeU32Error, show_DecodeU32Error; first [solve [fields] | destruct x; fields]. Qed.
Hint Resolve s_DecodeU32Error : shown.
Lemma s_FromUtf8Error x : d_from_utf8_error x = show_FromUtf8Error x.
Proof. reflexivity. Qed.
Hint Resolve s_FromUtf8Error : shown.
Lemma s_list_error {E} type (d s : E -> dtree) e : (forall x, d x = s x) -> d_list_error type d e = show_list_error type s e.
Proof. intros H. destruct e; cbn [d_list_error show_list_error]; [rewrite s_DecodeU32Error|rewrite H]; reflexivity. Qed.
Hint Resolve s_list_error : shown.
Lemma s_InvalidAbsHeapTypeMarkerError x : d_InvalidAbsHeapTypeMarkerError x = show_InvalidAbsHeapTypeMarkerError x.
Proof. unfold d_InvalidAbsHeapTypeMarkerError, show_InvalidAbsHeapTypeMarkerError; first [solve [fields] | destruct x; fields]. Qed.
Hint Resolve s_InvalidAbsHeapTypeMarkerError : shown.
Lemma s_DecodeAbsHeapTypeError x : d_DecodeAbsHeapTypeError x = show_DecodeAbsHeapTypeError x.
Proof. unfold d_DecodeAbsHeapTypeError, show_DecodeAbsHeapTypeError; first [solve [fields] | destruct x; fields]. Qed.
Hint Resolve s_DecodeAbsHeapTypeError : shown.
Lemma s_DecodeS33Error x : d_DecodeS33Error x = show_DecodeS33Error x.
Proof. unfold d_DecodeS33Error, show_DecodeS33Error; first [solve [fields] | destruct x; fields]. Qed.
Hint Resolve s_DecodeS33Error : shown.
Lemma s_DecodeHeapTypeError x : d_DecodeHeapTypeError x = show_DecodeHeapTypeError x.
Proof. unfold d_DecodeHeapTypeError, show_DecodeHeapTypeError; first [solve [fields] | destruct x; fields]. Qed.
Hint Resolve s_DecodeHeapTypeError : shown.
Lemma s_DecodeRefTypeError x : d_DecodeRefTypeError x = show_DecodeRefTypeError x.
Proof. unfold d_DecodeRefTypeError, show_DecodeRefTypeError; first [solve [fields] | destruct x; fields]. Qed.
Hint Resolve s_DecodeRefTypeError : shown.
Lemma s_DecodeValTypeError x : d_DecodeValTypeError x = show_DecodeValTypeError x.
Proof. unfold d_DecodeValTypeError, show_DecodeValTypeError; first [solve [fields] | destruct x; fields]. Qed.
Hint Resolve s_DecodeValTypeError : shown.
Lemma s_DecodeCodeLocalsError x : d_DecodeCodeLocalsError x = show_DecodeCodeLocalsError x.
Proof. unfold d_DecodeCodeLocalsError, show_DecodeCodeLocalsError; first [solve [fields] | destruct x; fields]. Qed.
Hint Resolve s_DecodeCodeLocalsError : shown.
Lemma s_DecodeDataIdxError x : d_DecodeDataIdxError x = show_DecodeDataIdxError x.
Proof. unfold d_DecodeDataIdxError, show_DecodeDataIdxError; first [solve [fields] | destruct x; fields]. Qed.
Hint Resolve s_DecodeDataIdxError : shown.
Lemma s_DecodeElemIdxError x : d_DecodeElemIdxError x = show_DecodeElemIdxError x.
Proof. unfold d_DecodeElemIdxError, show_DecodeElemIdxError; first [solve [fields] | destruct x; fields]. Qed.
Hint Resolve s_DecodeElemIdxError : shown.
Lemma s_DecodeTypeIdxError x : d_DecodeTypeIdxError x = show_DecodeTypeIdxError x.
Proof. unfold d_DecodeTypeIdxError, show_DecodeTypeIdxError; first [solve [fields] | destruct x; fields]. Qed.
Hint Resolve s_DecodeTypeIdxError : shown.
Lemma s_AggregateError x : d_AggregateError x = show_AggregateError x.
Proof. unfold d_AggregateError, show_AggregateError; first [solve [fields] | destruct x; fields]. Qed.
Hint Resolve s_AggregateError : shown.
Lemma s_BlockTypeError x : d_BlockTypeError x = show_BlockTypeError x.
Proof. unfold d_BlockTypeError, show_BlockTypeError; first [solve [fields] | destruct x; fields]. Qed.
Hint Resolve s_BlockTypeError : shown.
Lemma s_DecodeLabelIdxError x : d_DecodeLabelIdxError x = show_DecodeLabelIdxError x.
Proof. unfold d_DecodeLabelIdxError, show_DecodeLabelIdxError; first [solve [fields] | destruct x; fields]. Qed.
Hint Resolve s_DecodeLabelIdxError : shown.
Lemma s_DecodeTagIdxError x : d_DecodeTagIdxError x = show_DecodeTagIdxError x.
Proof. unfold d_DecodeTagIdxError, show_DecodeTagIdxError; first [solve [fields] | destruct x; fields]. Qed.
Hint Resolve s_DecodeTagIdxError : shown.
Lemma s_CatchError x : d_CatchError x = show_CatchError x.
Proof. unfold d_CatchError, show_CatchError; first [solve [fields] | destruct x; fields]. Qed.
Hint Resolve s_CatchError : shown.
Lemma s_DecodeFuncIdxError x : d_DecodeFuncIdxError x = show_DecodeFuncIdxError x.
Proof. unfold d_DecodeFuncIdxError, show_DecodeFuncIdxError; first [solve [fields] | destruct x; fields]. Qed.
Hint Resolve s_DecodeFuncIdxError : shown.
Lemma s_DecodeTableIdxError x : d_DecodeTableIdxError x = show_DecodeTableIdxError x.
Proof. unfold d_DecodeTableIdxError, show_DecodeTableIdxError; first [solve [fields] | destruct x; fields]. Qed.
Hint Resolve s_DecodeTableIdxError : shown.
Lemma s_ControlError x : d_ControlError x = show_ControlError x.
Proof. unfold d_ControlError, show_ControlError; first [solve [fields] | destruct x; fields]. Qed.
Hint Resolve s_ControlError : shown.
Lemma s_DecodeMemIdxError x : d_DecodeMemIdxError x = show_DecodeMemIdxError x.
Proof. unfold d_DecodeMemIdxError, show_DecodeMemIdxError; first [solve [fields] | destruct x; fields]. Qed.
Hint Resolve s_DecodeMemIdxError : shown.
Lemma s_DecodeU64Error x : d_DecodeU64Error x = show_DecodeU64Error x.
Proof. unfold d_DecodeU64Error, show_DecodeU64Error; first [solve [fields] | destruct x; fields]. Qed.
Hint Resolve s_DecodeU64Error : shown.
Lemma s_MemargError x : d_MemargError x = show_MemargError x.
Proof. unfold d_MemargError, show_MemargError; first [solve [fields] | destruct x; fields]. Qed.
Hint Resolve s_MemargError : shown.
Lemma s_MemoryError x : d_MemoryError x = show_MemoryError x.
Proof. unfold d_MemoryError, show_MemoryError; first [solve [fields] | destruct x; fields]. Qed.
Hint Resolve s_MemoryError : shown.
Lemma s_DecodeFloat32Error x : d_DecodeFloat32Error x = show_DecodeFloat32Error x.
Proof. unfold d_DecodeFloat32Error, show_DecodeFloat32Error; first [solve [fields] | destruct x; fields]. Qed.
Hint Resolve s_DecodeFloat32Error : shown.
Lemma s_DecodeFloat64Error x : d_DecodeFloat64Error x = show_DecodeFloat64Error x.
Proof. unfold d_DecodeFloat64Error, show_DecodeFloat64Error; first [solve [fields] | destruct x; fields]. Qed.
Hint Resolve s_DecodeFloat64Error : shown.
Lemma s_DecodeI32Error x : d_DecodeI32Error x = show_DecodeI32Error x.
Proof. unfold d_DecodeI32Error, show_DecodeI32Error; first [solve [fields] | destruct x; fields]. Qed.
Hint Resolve s_DecodeI32Error : shown.
Lemma s_DecodeI64Error x : d_DecodeI64Error x = show_DecodeI64Error x.
Proof. unfold d_DecodeI64Error, show_DecodeI64Error; first [solve [fields] | destruct x; fields]. Qed.
Hint Resolve s_DecodeI64Error : shown.
Lemma s_NumericError x : d_NumericError x = show_NumericError x.
Proof. unfold d_NumericError, show_NumericError; first [solve [fields] | destruct x; fields]. Qed.
Hint Resolve s_NumericError : shown.
Lemma s_ParametricError x : d_ParametricError x = show_ParametricError x.
Proof. unfold d_ParametricError, show_ParametricError; first [solve [fields] | destruct x; fields]. Qed.
Hint Resolve s_ParametricError : shown.
Lemma s_ReferenceError x : d_ReferenceError x = show_ReferenceError x.
Proof. unfold d_ReferenceError, show_ReferenceError; first [solve [fields] | destruct x; fields]. Qed.
Hint Resolve s_ReferenceError : shown.
Lemma s_TableError x : d_TableError x = show_TableError x.
Proof. unfold d_TableError, show_TableError; first [solve [fields] | destruct x; fields]. Qed.
Hint Resolve s_TableError : shown.
Lemma s_DecodeGlobalIdxError x : d_DecodeGlobalIdxError x = show_DecodeGlobalIdxError x.
Proof. unfold d_DecodeGlobalIdxError, show_DecodeGlobalIdxError; first [solve [fields] | destruct x; fields]. Qed.
Hint Resolve s_DecodeGlobalIdxError : shown.
Lemma s_DecodeLocalIdxError x : d_DecodeLocalIdxError x = show_DecodeLocalIdxError x.
Proof. unfold d_DecodeLocalIdxError, show_DecodeLocalIdxError; first [solve [fields] | destruct x; fields]. Qed.
Hint Resolve s_DecodeLocalIdxError : shown.
Lemma s_VariableError x : d_VariableError x = show_VariableError x.
Proof. unfold d_VariableError, show_VariableError; first [solve [fields] | destruct x; fields]. Qed.
Hint Resolve s_VariableError : shown.
Lemma s_LaneIdxError x : d_LaneIdxError x = show_LaneIdxError x.
Proof. unfold d_LaneIdxError, show_LaneIdxError; first [solve [fields] | destruct x; fields]. Qed.
Hint Resolve s_LaneIdxError : shown.
Lemma s_VectorError x : d_VectorError x = show_VectorError x.
Proof. unfold d_VectorError, show_VectorError; first [solve [fields] | destruct x; fields]. Qed.
Hint Resolve s_VectorError : shown.
Lemma s_ParseError x : d_ParseError x = show_ParseError x.
Proof. unfold d_ParseError, show_ParseError; first [solve [fields] | destruct x; fields]. Qed.
Hint Resolve s_ParseError : shown.
Lemma s_ParseExpressionError x : d_ParseExpressionError x = show_ParseExpressionError x.
Proof. unfold d_ParseExpressionError, show_ParseExpressionError; first [solve [fields] | destruct x; fields]. Qed.
Hint Resolve s_ParseExpressionError : shown.
Lemma s_DecodeCodeError x : d_DecodeCodeError x = show_DecodeCodeError x.
Proof. unfold d_DecodeCodeError, show_DecodeCodeError; first [solve [fields] | destruct x; fields]. Qed.
Hint Resolve s_DecodeCodeError : shown.
Lemma s_DecodeCodeSectionError x : d_DecodeCodeSectionError x = show_DecodeCodeSectionError x.
Proof. unfold d_DecodeCodeSectionError, show_DecodeCodeSectionError; first [solve [fields] | destruct x; fields]. Qed.
Hint Resolve s_DecodeCodeSectionError : shown.
Lemma s_DecodeByteVectorError x : d_DecodeByteVectorError x = show_DecodeByteVectorError x.
Proof. unfold d_DecodeByteVectorError, show_DecodeByteVectorError; first [solve [fields] | destruct x; fields]. Qed.
Hint Resolve s_DecodeByteVectorError : shown.
Lemma s_DecodeNameError x : d_DecodeNameError x = show_DecodeNameError x.
Proof. unfold d_DecodeNameError, show_DecodeNameError; first [solve [fields] | destruct x; fields]. Qed.
Hint Resolve s_DecodeNameError : shown.
Lemma s_DecodeCustomSectionError x : d_DecodeCustomSectionError x = show_DecodeCustomSectionError x.
Proof. unfold d_DecodeCustomSectionError, show_DecodeCustomSectionError; first [solve [fields] | destruct x; fields]. Qed.
Hint Resolve s_DecodeCustomSectionError : shown.
Lemma s_DecodeDataCountSectionError x : d_DecodeDataCountSectionError x = show_DecodeDataCountSectionError x.
Proof. unfold d_DecodeDataCountSectionError, show_DecodeDataCountSectionError; first [solve [fields] | destruct x; fields]. Qed.
Hint Resolve s_DecodeDataCountSectionError : shown.
Lemma s_DecodeDataSegmentError x : d_DecodeDataSegmentError x = show_DecodeDataSegmentError x.
Proof. unfold d_DecodeDataSegmentError, show_DecodeDataSegmentError; first [solve [fields] | destruct x; fields]. Qed.
Hint Resolve s_DecodeDataSegmentError : shown.
Lemma s_DecodeDataSectionError x : d_DecodeDataSectionError x = show_DecodeDataSectionError x.
Proof. unfold d_DecodeDataSectionError, show_DecodeDataSectionError; first [solve [fields] | destruct x; fields]. Qed.
Hint Resolve s_DecodeDataSectionError : shown.
Lemma s_DecodeElementKindError x : d_DecodeElementKindError x = show_DecodeElementKindError x.
Proof. unfold d_DecodeElementKindError, show_DecodeElementKindError; first [solve [fields] | destruct x; fields]. Qed.
Hint Resolve s_DecodeElementKindError : shown.
Lemma s_DecodeElementError x : d_DecodeElementError x = show_DecodeElementError x.
Proof. unfold d_DecodeElementError, show_DecodeElementError; first [solve [fields] | destruct x; fields]. Qed.
Hint Resolve s_DecodeElementError : shown.
Lemma s_DecodeElementSectionError x : d_DecodeElementSectionError x = show_DecodeElementSectionError x.
Proof. unfold d_DecodeElementSectionError, show_DecodeElementSectionError; first [solve [fields] | destruct x; fields]. Qed.
Hint Resolve s_DecodeElementSectionError : shown.
Lemma s_InvalidExportDescMarkerByte x : d_InvalidExportDescMarkerByte x = show_InvalidExportDescMarkerByte x.
Proof. unfold d_InvalidExportDescMarkerByte, show_InvalidExportDescMarkerByte; first [solve [fields] | destruct x; fields]. Qed.
Hint Resolve s_InvalidExportDescMarkerByte : shown.
Lemma s_DecodeExportError x : d_DecodeExportError x = show_DecodeExportError x.
Proof. unfold d_DecodeExportError, show_DecodeExportError; first [solve [fields] | destruct x; fields]. Qed.
Hint Resolve s_DecodeExportError : shown.
Lemma s_DecodeExportSectionError x : d_DecodeExportSectionError x = show_DecodeExportSectionError x.
Proof. unfold d_DecodeExportSectionError, show_DecodeExportSectionError; first [solve [fields] | destruct x; fields]. Qed.
Hint Resolve s_DecodeExportSectionError : shown.
Lemma s_DecodeFunctionSectionError x : d_DecodeFunctionSectionError x = show_DecodeFunctionSectionError x.
Proof. unfold d_DecodeFunctionSectionError, show_DecodeFunctionSectionError; first [solve [fields] | destruct x; fields]. Qed.
Hint Resolve s_DecodeFunctionSectionError : shown.
Lemma s_InvalidMutabilityByteError x : d_InvalidMutabilityByteError x = show_InvalidMutabilityByteError x.
Proof. unfold d_InvalidMutabilityByteError, show_InvalidMutabilityByteError; first [solve [fields] | destruct x; fields]. Qed.
Hint Resolve s_InvalidMutabilityByteError : shown.
Lemma s_DecodeGlobalTypeError x : d_DecodeGlobalTypeError x = show_DecodeGlobalTypeError x.
Proof. unfold d_DecodeGlobalTypeError, show_DecodeGlobalTypeError; first [solve [fields] | destruct x; fields]. Qed.
Hint Resolve s_DecodeGlobalTypeError : shown.
Lemma s_DecodeGlobalError x : d_DecodeGlobalError x = show_DecodeGlobalError x.
Proof. unfold d_DecodeGlobalError, show_DecodeGlobalError; first [solve [fields] | destruct x; fields]. Qed.
Hint Resolve s_DecodeGlobalError : shown.
Lemma s_DecodeGlobalSectionError x : d_DecodeGlobalSectionError x = show_DecodeGlobalSectionError x.
Proof. unfold d_DecodeGlobalSectionError, show_DecodeGlobalSectionError; first [solve [fields] | destruct x; fields]. Qed.
Hint Resolve s_DecodeGlobalSectionError : shown.
Lemma s_ParseLimitsError x : d_ParseLimitsError x = show_ParseLimitsError x.
Proof. unfold d_ParseLimitsError, show_ParseLimitsError; first [solve [fields] | destruct x; fields]. Qed.
Hint Resolve s_ParseLimitsError : shown.
Lemma s_DecodeMemoryTypeError x : d_DecodeMemoryTypeError x = show_DecodeMemoryTypeError x.
Proof. unfold d_DecodeMemoryTypeError, show_DecodeMemoryTypeError; first [solve [fields] | destruct x; fields]. Qed.
Hint Resolve s_DecodeMemoryTypeError : shown.
Lemma s_DecodeTableTypeError x : d_DecodeTableTypeError x = show_DecodeTableTypeError x.
Proof. unfold d_DecodeTableTypeError, show_DecodeTableTypeError; first [solve [fields] | destruct x; fields]. Qed.
Hint Resolve s_DecodeTableTypeError : shown.
Lemma s_DecodeTagTypeError x : d_DecodeTagTypeError x = show_DecodeTagTypeError x.
Proof. unfold d_DecodeTagTypeError, show_DecodeTagTypeError; first [solve [fields] | destruct x; fields]. Qed.
Hint Resolve s_DecodeTagTypeError : shown.
Lemma s_DecodeExternTypeError x : d_DecodeExternTypeError x = show_DecodeExternTypeError x.
Proof. unfold d_DecodeExternTypeError, show_DecodeExternTypeError; first [solve [fields] | destruct x; fields]. Qed.
Hint Resolve s_DecodeExternTypeError : shown.
Lemma s_DecodeImportError x : d_DecodeImportError x = show_DecodeImportError x.
Proof. unfold d_DecodeImportError, show_DecodeImportError; first [solve [fields] | destruct x; fields]. Qed.
Hint Resolve s_DecodeImportError : shown.
Lemma s_DecodeImportSectionError x : d_DecodeImportSectionError x = show_DecodeImportSectionError x.
Proof. unfold d_DecodeImportSectionError, show_DecodeImportSectionError; first [solve [fields] | destruct x; fields]. Qed.
Hint Resolve s_DecodeImportSectionError : shown.
Lemma s_DecodeMemorySectionError x : d_DecodeMemorySectionError x = show_DecodeMemorySectionError x.
Proof. unfold d_DecodeMemorySectionError, show_DecodeMemorySectionError; first [solve [fields] | destruct x; fields]. Qed.
Hint Resolve s_DecodeMemorySectionError : shown.
Lemma s_InvalidSectionIdError x : d_InvalidSectionIdError x = show_InvalidSectionIdError x.
Proof. unfold d_InvalidSectionIdError, show_InvalidSectionIdError; first [solve [fields] | destruct x; fields]. Qed.
Hint Resolve s_InvalidSectionIdError : shown.
Lemma s_DecodeSectionHeaderError x : d_DecodeSectionHeaderError x = show_DecodeSectionHeaderError x.
Proof. unfold d_DecodeSectionHeaderError, show_DecodeSectionHeaderError; first [solve [fields] | destruct x; fields]. Qed.
Hint Resolve s_DecodeSectionHeaderError : shown.
Lemma s_DecodeStartSectionError x : d_DecodeStartSectionError x = show_DecodeStartSectionError x.
Proof. unfold d_DecodeStartSectionError, show_DecodeStartSectionError; first [solve [fields] | destruct x; fields]. Qed.
Hint Resolve s_DecodeStartSectionError : shown.
Lemma s_DecodeTableError x : d_DecodeTableError x = show_DecodeTableError x.
Proof. unfold d_DecodeTableError, show_DecodeTableError; first [solve [fields] | destruct x; fields]. Qed.
Hint Resolve s_DecodeTableError : shown.
Lemma s_DecodeTableSectionError x : d_DecodeTableSectionError x = show_DecodeTableSectionError x.
Proof. unfold d_DecodeTableSectionError, show_DecodeTableSectionError; first [solve [fields] | destruct x; fields]. Qed.
Hint Resolve s_DecodeTableSectionError : shown.
Lemma s_DecodeTagSectionError x : d_DecodeTagSectionError x = show_DecodeTagSectionError x.
Proof. unfold d_DecodeTagSectionError, show_DecodeTagSectionError; first [solve [fields] | destruct x; fields]. Qed.
Hint Resolve s_DecodeTagSectionError : shown.
Lemma s_DecodeStorageTypeError x : d_DecodeStorageTypeError x = show_DecodeStorageTypeError x.
Proof. unfold d_DecodeStorageTypeError, show_DecodeStorageTypeError; first [solve [fields] | destruct x; fields]. Qed.
Hint Resolve s_DecodeStorageTypeError : shown.
Lemma s_DecodeFieldTypeError x : d_DecodeFieldTypeError x = show_DecodeFieldTypeError x.
Proof. unfold d_DecodeFieldTypeError, show_DecodeFieldTypeError; first [solve [fields] | destruct x; fields]. Qed.
Hint Resolve s_DecodeFieldTypeError : shown.
Lemma s_DecodeResultTypeError x : d_DecodeResultTypeError x = show_DecodeResultTypeError x.
Proof. unfold d_DecodeResultTypeError, show_DecodeResultTypeError; first [solve [fields] | destruct x; fields]. Qed.
Hint Resolve s_DecodeResultTypeError : shown.
Lemma s_DecodeCompTypeError x : d_DecodeCompTypeError x = show_DecodeCompTypeError x.
Proof. unfold d_DecodeCompTypeError, show_DecodeCompTypeError; first [solve [fields] | destruct x; fields]. Qed.
Hint Resolve s_DecodeCompTypeError : shown.
Lemma s_DecodeSubTypeError x : d_DecodeSubTypeError x = show_DecodeSubTypeError x.
Proof. unfold d_DecodeSubTypeError, show_DecodeSubTypeError; first [solve [fields] | destruct x; fields]. Qed.
Hint Resolve s_DecodeSubTypeError : shown.
Lemma s_DecodeRecTypeError x : d_DecodeRecTypeError x = show_DecodeRecTypeError x.
Proof. unfold d_DecodeRecTypeError, show_DecodeRecTypeError; first [solve [fields] | destruct x; fields]. Qed.
Hint Resolve s_DecodeRecTypeError : shown.
Lemma s_DecodeTypeSectionError x : d_DecodeTypeSectionError x = show_DecodeTypeSectionError x.
Proof. unfold d_DecodeTypeSectionError, show_DecodeTypeSectionError; first [solve [fields] | destruct x; fields]. Qed.
Hint Resolve s_DecodeTypeSectionError : shown.
Lemma s_ParsePreambleError x : d_ParsePreambleError x = show_ParsePreambleError x.
Proof. unfold d_ParsePreambleError, show_ParsePreambleError; first [solve [fields] | destruct x; fields]. Qed.
Hint Resolve s_ParsePreambleError : shown.
Lemma s_DecodeModuleError x : d_DecodeModuleError x = show_DecodeModuleError x.
Proof. unfold d_DecodeModuleError, show_DecodeModuleError; first [solve [fields] | destruct x; fields]. Qed.
Hint Resolve s_DecodeModuleError : shown.
End Shows.

Theorem module_page (T : Texts) m : readable T -> debug_module m = page (lines 0 "" (show_Module m) "").
Proof. intros HT. rewrite <- s_Module. exact (pretty_page true _ (module_wf (p := true) HT m)). Qed.
Theorem module_phrase (T : Texts) m : readable T -> compact_module m = phrase (show_Module m).
Proof. intros HT. rewrite <- s_Module. exact (compact_phrase true _ (module_wf (p := true) HT m)). Qed.
Theorem error_page (T : Texts) e : readable T -> debug_error e = page (lines 0 "" (show_DecodeModuleError e) "").
Proof. intros HT. rewrite <- s_DecodeModuleError. exact (pretty_page true _ (error_wf HT e)). Qed.
Theorem error_phrase (T : Texts) e : readable T -> compact_error e = phrase (show_DecodeModuleError e).
Proof. intros HT. rewrite <- s_DecodeModuleError. exact (compact_phrase true _ (error_wf HT e)). Qed.
