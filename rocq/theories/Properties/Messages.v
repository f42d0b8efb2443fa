(** C56: the text and the source() of every error variant, read off the
    attributes in /repo/src/decode (this file is generated from them).
    [decimal] is in Spec/Cli.v, [integer], [hexadecimal], [kind_name] in
    Spec/Texts.v. *)
From Verif Require Import Model.Prelude Model.Io Model.Ast Model.Errors Model.Display Model.Module Model.Cli.
From Verif Require Import Spec.Cli Spec.Texts Proofs.Decimal Properties.Cli.
From Coq Require Import Lia ZifyN ZifyNat ZifyBool String Ascii Strings.Byte.
Local Open Scope string_scope.

(** ** numerals *)
Lemma hexit_ok d : (d < 16)%N -> exists c, digit d = String c "" /\ is_hexit c d.
Proof.
  intros Hd. unfold digit. eexists. split; [reflexivity|]. unfold is_hexit. destruct (N.ltb_spec d 10) as [Hs|Hs].
  - left. split; [exact Hs|]. apply N_ascii_embedding. lia.
  - right. split; [lia|]. rewrite N_ascii_embedding by lia. lia.
Qed.
Lemma hexits_ok fuel : forall n, (16 <= n)%N -> (n < 16 ^ (N.of_nat fuel + 1))%N -> hexits (digits 16 fuel n) n.
Proof.
  induction fuel as [|fuel IH]; intros n H16 Hn; cbn [digits].
  - cbn in Hn. lia.
  - replace (n <? 16)%N with false by lia.
    assert (Hm : (n mod 16 < 16)%N) by (apply N.mod_lt; lia). destruct (hexit_ok (n mod 16)) as (c & -> & Hc); [exact Hm|].
    assert (Hdiv : n = (16 * (n / 16) + n mod 16)%N) by (apply N.div_mod; lia).
    destruct (N.ltb_spec (n / 16) 16) as [Hs|Hs].
    + destruct (hexit_ok (n / 16)) as (a & Ea & Ha); [exact Hs|]. rewrite Hdiv at 2.
      assert (Ed : digits 16 fuel (n / 16) = String a "").
      { destruct fuel as [|fuel]; cbn [digits]; [rewrite N.mod_small by exact Hs; exact Ea|]. replace (n / 16 <? 16)%N with true by lia. exact Ea. }
      rewrite Ed. exact (hexits_two _ _ _ _ Ha Hc).
    + rewrite Hdiv at 2. constructor; [|lia|exact Hc]. apply IH; [exact Hs|].
      apply N.div_lt_upper_bound; [lia|]. replace (N.of_nat (S fuel) + 1)%N with (N.succ (N.of_nat fuel + 1)) in Hn by lia. rewrite N.pow_succ_r' in Hn. lia.
Qed.
Lemma hex04_ok n : hexadecimal (hex04 n) n.
Proof.
  unfold hex04. destruct (N.ltb_spec n 16) as [Hs|Hs].
  - destruct (hexit_ok n) as (c & -> & Hc); [exact Hs|]. exists (String "0" (String c "")). split; [reflexivity|].
    refine (hexits_two "0"%char 0%N c n _ Hc). left. split; [lia|reflexivity].
  - exists (digits 16 (N.to_nat (N.log2 n)) n). split; [reflexivity|]. apply hexits_ok; [exact Hs|]. rewrite N2Nat.id.
    eapply N.lt_le_trans; [apply N.log2_spec; lia|]. rewrite <- N.add_1_r. apply N.pow_le_mono_l. lia.
Qed.
Lemma hex_ok n : short_hexadecimal (hex n) n.
Proof.
  destruct (N.ltb_spec n 16) as [Hs|Hs].
  - right. destruct (hexit_ok n) as (c & Ec & Hc); [exact Hs|]. exists c. split; [|exact Hc]. unfold hex.
    assert (E : digits 16 (N.to_nat (N.log2 n)) n = digit n); [|rewrite E, Ec; reflexivity].
    destruct (N.to_nat (N.log2 n)); cbn [digits]; [rewrite N.mod_small by exact Hs; reflexivity|]. replace (n <? 16)%N with true by lia. reflexivity.
  - left. split; [exact Hs|]. pose proof (hex04_ok n) as H. unfold hex04 in H. replace (n <? 16)%N with false in H by lia. exact H.
Qed.
Lemma kind_ok k : kind_name (debug_section k) k.
Proof. destruct k; constructor. Qed.
Lemma appA (a b c : string) : (a ++ b) ++ c = a ++ b ++ c.
Proof. induction a as [|x a IH]; cbn; [reflexivity|]. rewrite IH. reflexivity. Qed.

Section Messages.
  Context {T : Texts}.

  (** transparent variants print and link what their payload does *)
  Theorem C56_forwarded :
    (forall x, view (n_u32 (U32_Io x)) = view (Io x)) /\
    (forall x, view (n_u64 (U64_Io x)) = view (Io x)) /\
    (forall x, view (n_i32 (I32_Io x)) = view (Io x)) /\
    (forall x, view (n_i64 (I64_Io x)) = view (Io x)) /\
    (forall x, view (n_s33 (S33_Io x)) = view (Io x)) /\
    (forall x, view (n_name (Name_DecodeByteVector x)) = view (n_byte_vector x)) /\
    (forall x, view (n_name (Name_Utf8 x)) = view (FromUtf8 x)) /\
    (forall x, view (n_absheaptype (AHT_InvalidMarkerByte x)) = view (n_invalid_absheaptype x)) /\
    (forall x, view (n_reftype (RT_Io x)) = view (Io x)) /\
    (forall x, view (n_reftype (RT_DecodeHeapType x)) = view (n_heaptype x)) /\
    (forall x, view (n_reftype (RT_InvalidMarkerByte x)) = view (n_absheaptype x)) /\
    (forall x, view (n_valtype (VTE_Io x)) = view (Io x)) /\
    (forall x, view (n_valtype (VTE_DecodeRefType x)) = view (n_reftype x)) /\
    (forall x, view (n_resulttype (RTE_DecodeList x)) = view (n_list n_valtype x)) /\
    (forall x, view (n_globaltype (GT_InvalidMutability x)) = view (n_invalid_mut x)) /\
    (forall x, view (n_storagetype (ST_ReadMarkerByte x)) = view (Io x)) /\
    (forall x, view (n_fieldtype (FT_DecodeStorageType x)) = view (n_storagetype x)) /\
    (forall x, view (n_fieldtype (FT_ReadMutabilityMarkerByte x)) = view (Io x)) /\
    (forall x, view (n_fieldtype (FT_DecodeMutability x)) = view (n_invalid_mut x)) /\
    (forall x, view (n_comptype (CT_ReadMarkerByte x)) = view (Io x)) /\
    (forall x, view (n_comptype (CT_DecodeFieldType x)) = view (n_fieldtype x)) /\
    (forall x, view (n_subtype (SubT_Io x)) = view (Io x)) /\
    (forall x, view (n_rectype (Rec_Io x)) = view (Io x)) /\
    (forall x, view (n_tabletype (TT_DecodeRefType x)) = view (n_reftype x)) /\
    (forall x, view (n_tabletype (TT_DecodeLimits x)) = view (n_limits x)) /\
    (forall x, view (n_tagtype (Tag_ReadMarkerByte x)) = view (Io x)) /\
    (forall x, view (n_externtype (Ext_ReadMarkerByte x)) = view (Io x)) /\
    (forall x, view (n_externtype (Ext_DecodeTypeIndex x)) = view (n_typeidx x)) /\
    (forall x, view (n_externtype (Ext_DecodeTableType x)) = view (n_tabletype x)) /\
    (forall x, view (n_externtype (Ext_DecodeMemoryType x)) = view (n_memtype x)) /\
    (forall x, view (n_externtype (Ext_DecodeGlobalType x)) = view (n_globaltype x)) /\
    (forall x, view (n_externtype (Ext_DecodeTagType x)) = view (n_tagtype x)) /\
    (forall x, view (n_catch (Catch_DecodeTagIdx x)) = view (n_tagidx x)) /\
    (forall x, view (n_catch (Catch_DecodeLabelIdx x)) = view (n_labelidx x)) /\
    (forall x, view (n_numeric (Num_DecodeI32 x)) = view (n_i32 x)) /\
    (forall x, view (n_numeric (Num_DecodeI64 x)) = view (n_i64 x)) /\
    (forall x, view (n_numeric (Num_DecodeF32 x)) = view (n_f32 x)) /\
    (forall x, view (n_numeric (Num_DecodeF64 x)) = view (n_f64 x)) /\
    (forall x, view (n_vector (Vec_Memarg x)) = view (n_memarg x)) /\
    (forall x, view (n_vector (Vec_LaneIdx x)) = view (n_laneidx x)) /\
    (forall x, view (n_import (Imp_DecodeExternType x)) = view (n_externtype x)) /\
    (forall x, view (n_table (Tbl_Io x)) = view (Io x)) /\
    (forall x, view (n_table (Tbl_DecodeTableType x)) = view (n_tabletype x)) /\
    (forall x, view (n_table (Tbl_DecodeExpression x)) = view (n_expr x)) /\
    (forall x, view (n_global (Glob_DecodeGlobalType x)) = view (n_globaltype x)) /\
    (forall x, view (n_export (Exp_DecodeName x)) = view (n_name x)) /\
    (forall x, view (n_export (Exp_InvalidDescriptorMarkerByte x)) = view (n_invalid_exportdesc x)) /\
    (forall x, view (n_elemkind (EK_Io x)) = view (Io x)) /\
    (forall x, view (n_elem (El_DecodeTableIdx x)) = view (n_tableidx x)) /\
    (forall x, view (n_elem (El_DecodeReferenceType x)) = view (n_reftype x)) /\
    (forall x, view (n_elem (El_DecodeFuncIdxVector x)) = view (n_list n_funcidx x)) /\
    (forall x, view (n_module (DM_ParsePreamble x)) = view (n_preamble x)) /\
    (forall x, view (n_module (DM_DecodeSectionHeader x)) = view (n_section_header x)) /\
    (forall x, view (n_module (DM_DecodeCustomSection x)) = view (n_custom_section x)) /\
    (forall x, view (n_module (DM_DecodeTypeSection x)) = view (n_type_section x)) /\
    (forall x, view (n_module (DM_DecodeImportSection x)) = view (n_import_section x)) /\
    (forall x, view (n_module (DM_DecodeFunctionSection x)) = view (n_function_section x)) /\
    (forall x, view (n_module (DM_DecodeTableSection x)) = view (n_table_section x)) /\
    (forall x, view (n_module (DM_DecodeMemorySection x)) = view (n_memory_section x)) /\
    (forall x, view (n_module (DM_DecodeGlobalSection x)) = view (n_global_section x)) /\
    (forall x, view (n_module (DM_DecodeExportSection x)) = view (n_export_section x)) /\
    (forall x, view (n_module (DM_DecodeStartSection x)) = view (n_start_section x)) /\
    (forall x, view (n_module (DM_DecodeElementSection x)) = view (n_elem_section x)) /\
    (forall x, view (n_module (DM_DecodeDatacountSection x)) = view (n_datacount_section x)) /\
    (forall x, view (n_module (DM_DecodeCodeSection x)) = view (n_code_section x)) /\
    (forall x, view (n_module (DM_DecodeDataSection x)) = view (n_data_section x)) /\
    (forall x, view (n_module (DM_DecodeTagSection x)) = view (n_tag_section x)).
  Proof.
    repeat split.
  Qed.

  (** variants whose payload is the next cause *)
  Theorem C56_linked :
    (forall x, e_source (view (n_typeidx (TypeIdxE x))) = Some (view (n_u32 x))) /\
    (forall x, e_source (view (n_funcidx (FuncIdxE x))) = Some (view (n_u32 x))) /\
    (forall x, e_source (view (n_tableidx (TableIdxE x))) = Some (view (n_u32 x))) /\
    (forall x, e_source (view (n_memidx (MemIdxE x))) = Some (view (n_u32 x))) /\
    (forall x, e_source (view (n_globalidx (GlobalIdxE x))) = Some (view (n_u32 x))) /\
    (forall x, e_source (view (n_elemidx (ElemIdxE x))) = Some (view (n_u32 x))) /\
    (forall x, e_source (view (n_dataidx (DataIdxE x))) = Some (view (n_u32 x))) /\
    (forall x, e_source (view (n_localidx (LocalIdxE x))) = Some (view (n_u32 x))) /\
    (forall x, e_source (view (n_labelidx (LabelIdxE x))) = Some (view (n_u32 x))) /\
    (forall x, e_source (view (n_tagidx (TagIdxE x))) = Some (view (n_u32 x))) /\
    (forall x, e_source (view (n_f32 (F32_ReadPayload x))) = Some (view (Io x))) /\
    (forall x, e_source (view (n_f64 (F64_ReadPayload x))) = Some (view (Io x))) /\
    (forall E (n : E -> node) (x : DecodeU32Error), e_source (view (n_list n (DecodeLength x))) = Some (view (n_u32 x))) /\
    (forall E (n : E -> node) (x0 : u32) (x1 : E), e_source (view (n_list n (ParseElement x0 x1))) = Some (view (n x1))) /\
    (forall x, e_source (view (n_byte_vector (BV_DecodeLength x))) = Some (view (n_u32 x))) /\
    (forall x, e_source (view (n_byte_vector (BV_ReadElements x))) = Some (view (Io x))) /\
    (forall x, e_source (view (n_absheaptype (AHT_ReadMarkerByte x))) = Some (view (Io x))) /\
    (forall x, e_source (view (n_heaptype (HT_ReadMarkerByte x))) = Some (view (Io x))) /\
    (forall x, e_source (view (n_heaptype (HT_DecodeTypeIndex x))) = Some (view (n_s33 x))) /\
    (forall x, e_source (view (n_globaltype (GT_DecodeValueType x))) = Some (view (n_valtype x))) /\
    (forall x0 x1, e_source (view (n_storagetype (ST_DecodeValTypeOrPackType x0 x1))) = Some (view (n_valtype x1))) /\
    (forall x, e_source (view (n_comptype (CT_DecodeStruct x))) = Some (view (n_list n_fieldtype x))) /\
    (forall x, e_source (view (n_subtype (SubT_DecodeSupertypes x))) = Some (view (n_list n_typeidx x))) /\
    (forall x, e_source (view (n_subtype (SubT_DecodeCompType x))) = Some (view (n_comptype x))) /\
    (forall x, e_source (view (n_rectype (Rec_DecodeSubtypes x))) = Some (view (n_list n_subtype x))) /\
    (forall x, e_source (view (n_rectype (Rec_DecodeSubtype x))) = Some (view (n_subtype x))) /\
    (forall x, e_source (view (n_memtype (MemTypeE x))) = Some (view (n_limits x))) /\
    (forall x, e_source (view (n_tagtype (Tag_DecodeTypeIndex x))) = Some (view (n_typeidx x))) /\
    (forall x, e_source (view (n_memarg (MA_MemIdx x))) = Some (view (n_memidx x))) /\
    (forall x, e_source (view (n_laneidx (LaneIdxE x))) = Some (view (Io x))) /\
    (forall x, e_source (view (n_blocktype (BT_DecodeIndex x))) = Some (view (n_s33 x))) /\
    (forall x, e_source (view (n_catch (Catch_ReadMarkerByte x))) = Some (view (Io x))) /\
    (forall x, e_source (view (n_control (Ctl_LabelIdx x))) = Some (view (n_labelidx x))) /\
    (forall x, e_source (view (n_control (Ctl_DecodeLabelIdxVector x))) = Some (view (n_list n_labelidx x))) /\
    (forall x, e_source (view (n_control (Ctl_DecodeCatchListError x))) = Some (view (n_list n_catch x))) /\
    (forall x, e_source (view (n_control (Ctl_HeapType x))) = Some (view (n_heaptype x))) /\
    (forall x, e_source (view (n_parametric (Par_DecodeList x))) = Some (view (n_list n_valtype x))) /\
    (forall x, e_source (view (n_instr (PE_ReadOpcode x))) = Some (view (Io x))) /\
    (forall x, e_source (view (n_instr (PE_Control x))) = Some (view (n_control x))) /\
    (forall x, e_source (view (n_instr (PE_Reference x))) = Some (view (n_reference x))) /\
    (forall x, e_source (view (n_instr (PE_Aggregate x))) = Some (view (n_aggregate x))) /\
    (forall x, e_source (view (n_instr (PE_Parametric x))) = Some (view (n_parametric x))) /\
    (forall x, e_source (view (n_instr (PE_Variable x))) = Some (view (n_variable x))) /\
    (forall x, e_source (view (n_instr (PE_Table x))) = Some (view (n_table_instr x))) /\
    (forall x, e_source (view (n_instr (PE_Memory x))) = Some (view (n_memory_instr x))) /\
    (forall x, e_source (view (n_instr (PE_Numeric x))) = Some (view (n_numeric x))) /\
    (forall x, e_source (view (n_instr (PE_Vector x))) = Some (view (n_vector x))) /\
    (forall x, e_source (view (n_expr (Expr_ParseInstruction x))) = Some (view (n_instr x))) /\
    (forall x, e_source (view (n_custom_section (Cust_DecodeName x))) = Some (view (n_name x))) /\
    (forall x, e_source (view (n_custom_section (Cust_Io x))) = Some (view (Io x))) /\
    (forall x, e_source (view (n_type_section (TypeSec_DecodeList x))) = Some (view (n_list n_rectype x))) /\
    (forall x, e_source (view (n_import_section (ImportSec_DecodeList x))) = Some (view (n_list n_import x))) /\
    (forall x, e_source (view (n_function_section (FuncSec_DecodeList x))) = Some (view (n_list n_typeidx x))) /\
    (forall x, e_source (view (n_table_section (TableSec_DecodeList x))) = Some (view (n_list n_table x))) /\
    (forall x, e_source (view (n_memory_section (MemSec_DecodeList x))) = Some (view (n_list n_memtype x))) /\
    (forall x, e_source (view (n_tag_section (TagSec_DecodeList x))) = Some (view (n_list n_tagtype x))) /\
    (forall x, e_source (view (n_global (Glob_DecodeInit x))) = Some (view (n_expr x))) /\
    (forall x, e_source (view (n_global_section (GlobalSec_DecodeList x))) = Some (view (n_list n_global x))) /\
    (forall x, e_source (view (n_export (Exp_DecodeIndex x))) = Some (view (n_u32 x))) /\
    (forall x, e_source (view (n_export_section (ExportSec_DecodeList x))) = Some (view (n_list n_export x))) /\
    (forall x, e_source (view (n_start_section (StartSecE x))) = Some (view (n_funcidx x))) /\
    (forall x, e_source (view (n_elem (El_DecodeElementKind x))) = Some (view (n_elemkind x))) /\
    (forall x, e_source (view (n_elem_section (ElemSec_DecodeList x))) = Some (view (n_list n_elem x))) /\
    (forall x, e_source (view (n_datacount_section (DC_DecodeDataSegmentCount x))) = Some (view (n_u32 x))) /\
    (forall x, e_source (view (n_locals (Loc_DecodeLocalValType x))) = Some (view (n_valtype x))) /\
    (forall x, e_source (view (n_code (Code_DecodeLocalsVector x))) = Some (view (n_list n_locals x))) /\
    (forall x, e_source (view (n_code (Code_DecodeFunctionBody x))) = Some (view (n_expr x))) /\
    (forall x, e_source (view (n_code_section (CodeSec_DecodeList x))) = Some (view (n_list n_code x))) /\
    (forall x, e_source (view (n_data (Dat_DecodeInitVector x))) = Some (view (n_byte_vector x))) /\
    (forall x, e_source (view (n_data (Dat_DecodeMemIdx x))) = Some (view (n_memidx x))) /\
    (forall x, e_source (view (n_data_section (DataSec_DecodeList x))) = Some (view (n_list n_data x))) /\
    (forall x, e_source (view (n_preamble (Pre_Io x))) = Some (view (Io x))) /\
    (forall x, e_source (view (n_section_header (Hdr_ReadSectionIdByte x))) = Some (view (Io x))) /\
    (forall x, e_source (view (n_section_header (Hdr_InvalidSectionId x))) = Some (view (n_invalid_section_id x))) /\
    (forall x, e_source (view (n_section_header (Hdr_DecodeSectionSize x))) = Some (view (n_u32 x))).
  Proof.
    repeat split.
  Qed.

  (** variants that do not report their payload as a cause *)
  Theorem C56_hidden :
    (forall x, e_source (view (n_globaltype (GT_DecodeMutability x))) = None) /\
    (forall x, e_source (view (n_comptype (CT_DecodeFuncParameters x))) = None) /\
    (forall x, e_source (view (n_comptype (CT_DecodeFuncResults x))) = None) /\
    (forall x, e_source (view (n_limits (Lim_ReadFlagByte x))) = None) /\
    (forall x, e_source (view (n_limits (Lim_ReadMinLimit x))) = None) /\
    (forall x, e_source (view (n_limits (Lim_ReadMaxLimit x))) = None) /\
    (forall x, e_source (view (n_memarg (MA_Align x))) = None) /\
    (forall x, e_source (view (n_memarg (MA_Offset x))) = None) /\
    (forall x, e_source (view (n_blocktype (BT_ReadMarkerByte x))) = None) /\
    (forall x, e_source (view (n_control (Ctl_FuncIdx x))) = None) /\
    (forall x, e_source (view (n_control (Ctl_TableIdx x))) = None) /\
    (forall x, e_source (view (n_control (Ctl_TypeIdx x))) = None) /\
    (forall x, e_source (view (n_control (Ctl_TagIdx x))) = None) /\
    (forall x, e_source (view (n_control (Ctl_BlockType x))) = None) /\
    (forall x, e_source (view (n_control (Ctl_ReadCastNullabilityMarker x))) = None) /\
    (forall x, e_source (view (n_reference (Ref_HeapType x))) = None) /\
    (forall x, e_source (view (n_reference (Ref_FuncIdx x))) = None) /\
    (forall x, e_source (view (n_reference (Ref_ReadSubOpcode x))) = None) /\
    (forall x, e_source (view (n_aggregate (Agg_TypeIdx x))) = None) /\
    (forall x, e_source (view (n_aggregate (Agg_FieldIndex x))) = None) /\
    (forall x, e_source (view (n_aggregate (Agg_DataIdx x))) = None) /\
    (forall x, e_source (view (n_aggregate (Agg_ElemIdx x))) = None) /\
    (forall x, e_source (view (n_aggregate (Agg_ArrayFixedLength x))) = None) /\
    (forall x, e_source (view (n_variable (Var_LocalIdx x))) = None) /\
    (forall x, e_source (view (n_variable (Var_GlobalIdx x))) = None) /\
    (forall x, e_source (view (n_table_instr (Tab_TableIdx x))) = None) /\
    (forall x, e_source (view (n_table_instr (Tab_ElemIdx x))) = None) /\
    (forall x, e_source (view (n_memory_instr (Mem_DecodeMemarg x))) = None) /\
    (forall x, e_source (view (n_memory_instr (Mem_DecodeDataIdx x))) = None) /\
    (forall x, e_source (view (n_memory_instr (Mem_DecodeMemIdx x))) = None) /\
    (forall x, e_source (view (n_numeric (Num_ReadOpcode x))) = None) /\
    (forall x, e_source (view (n_vector (Vec_ReadOpcode x))) = None) /\
    (forall x, e_source (view (n_vector (Vec_ReadImmediateBytes x))) = None) /\
    (forall x, e_source (view (n_import (Imp_DecodeModuleName x))) = None) /\
    (forall x, e_source (view (n_import (Imp_DecodeItemName x))) = None) /\
    (forall x, e_source (view (n_export (Exp_ReadDescriptorMarkerByte x))) = None) /\
    (forall x, e_source (view (n_elem (El_DecodeBitfield x))) = None) /\
    (forall x, e_source (view (n_elem (El_DecodeOffsetExpression x))) = None) /\
    (forall x, e_source (view (n_elem (El_DecodeElementExpression x))) = None) /\
    (forall x, e_source (view (n_elem (El_DecodeInit x))) = None) /\
    (forall x, e_source (view (n_locals (Loc_DecodeLocalsCount x))) = None) /\
    (forall x, e_source (view (n_code (Code_DecodeFunctionSize x))) = None) /\
    (forall x, e_source (view (n_data (Dat_DecodeBitfield x))) = None) /\
    (forall x, e_source (view (n_data (Dat_DecodeOffsetExpr x))) = None).
  Proof.
    repeat split.
  Qed.

  (** variants without a payload that is an error *)
  Theorem C56_root :
    (e_source (view (n_u32 U32_TooLarge)) = None) /\
    (e_source (view (n_u32 U32_RepresentationTooLong)) = None) /\
    (e_source (view (n_u64 U64_TooLarge)) = None) /\
    (e_source (view (n_u64 U64_RepresentationTooLong)) = None) /\
    (e_source (view (n_i32 I32_TooLarge)) = None) /\
    (e_source (view (n_i32 I32_RepresentationTooLong)) = None) /\
    (e_source (view (n_i64 I64_RepresentationTooLong)) = None) /\
    (e_source (view (n_i64 I64_IncorrectSignExtension)) = None) /\
    (e_source (view (n_s33 S33_RepresentationTooLong)) = None) /\
    (e_source (view (n_s33 S33_IncorrectSignExtension)) = None) /\
    (forall x, e_source (view (n_invalid_absheaptype (InvalidAbsHeapTypeMarker x))) = None) /\
    (forall x, e_source (view (n_heaptype (HT_NegativeTypeIndex x))) = None) /\
    (forall x, e_source (view (n_invalid_mut (InvalidMutabilityByte x))) = None) /\
    (forall x, e_source (view (n_comptype (CT_InvalidMarkerByte x))) = None) /\
    (forall x, e_source (view (n_limits (Lim_UnexpectedFlagByte x))) = None) /\
    (forall x, e_source (view (n_tagtype (Tag_InvalidMarkerByte x))) = None) /\
    (forall x, e_source (view (n_externtype (Ext_InvalidMarkerByte x))) = None) /\
    (forall x, e_source (view (n_memarg (MA_InvalidFlagsBit x))) = None) /\
    (forall x, e_source (view (n_blocktype (BT_NegativeTypeIndex x))) = None) /\
    (forall x, e_source (view (n_catch (Catch_InvalidMarkerByte x))) = None) /\
    (e_source (view (n_control Ctl_UnexpectedElse)) = None) /\
    (forall x, e_source (view (n_control (Ctl_InvalidCastNullabilityMarker x))) = None) /\
    (forall x, e_source (view (n_vector (Vec_InvalidOpcode x))) = None) /\
    (forall x, e_source (view (n_instr (PE_InvalidOpcode x))) = None) /\
    (forall x, e_source (view (n_instr (PE_InvalidMarkerByteAfterFC x))) = None) /\
    (forall x, e_source (view (n_instr (PE_InvalidMarkerByteAfterFB x))) = None) /\
    (e_source (view (n_expr Expr_UnexpectedElse)) = None) /\
    (forall x, e_source (view (n_table (Tbl_UnexpectedMarkerByte x))) = None) /\
    (forall x, e_source (view (n_invalid_exportdesc (InvalidExportDescMarker x))) = None) /\
    (forall x, e_source (view (n_elemkind (EK_InvalidElemKind x))) = None) /\
    (forall x, e_source (view (n_elem (El_InvalidBitfield x))) = None) /\
    (forall x0 x1, e_source (view (n_locals (Loc_LocalsCountOutOfBound x0 x1))) = None) /\
    (forall x0 x1 x2, e_source (view (n_code (Code_EntrySizeMismatch x0 x1 x2))) = None) /\
    (forall x, e_source (view (n_data (Dat_InvalidBitfield x))) = None) /\
    (forall x, e_source (view (n_preamble (Pre_Unexpected x))) = None) /\
    (forall x, e_source (view (n_invalid_section_id (InvalidSectionId x))) = None) /\
    (forall x0 x1, e_source (view (n_module (DM_CodeFuncEntriesLenMismatch x0 x1))) = None) /\
    (forall x0 x1, e_source (view (n_module (DM_DataCountMismatch x0 x1))) = None) /\
    (forall x0 x1, e_source (view (n_module (DM_SectionOutOfOrder x0 x1))) = None) /\
    (forall x, e_source (view (n_module (DM_DuplicateSection x))) = None) /\
    (forall x0 x1 x2, e_source (view (n_module (DM_SectionSizeMismatch x0 x1 x2))) = None) /\
    (forall x0 x1, e_source (view (n_module (DM_DataCountDatasLenMismatch x0 x1))) = None) /\
    (e_source (view (n_module DM_DecodeDataCount)) = None) /\
    (e_source (view (n_module DM_DataIndexWithoutDataCount)) = None).
  Proof.
    repeat split.
  Qed.

  (** texts *)
  Theorem C56_text :
    (e_display (view (n_u32 U32_TooLarge)) = "uint32 too large") /\
    (e_display (view (n_u32 U32_RepresentationTooLong)) = "uint32 representation too long") /\
    (e_display (view (n_u64 U64_TooLarge)) = "uint64 too large") /\
    (e_display (view (n_u64 U64_RepresentationTooLong)) = "uint64 representation too long") /\
    (e_display (view (n_i32 I32_TooLarge)) = "int32 too large") /\
    (e_display (view (n_i32 I32_RepresentationTooLong)) = "int32 representation too long") /\
    (e_display (view (n_i64 I64_RepresentationTooLong)) = "int64 representation too long") /\
    (e_display (view (n_i64 I64_IncorrectSignExtension)) = "int64 incorrect sign extension") /\
    (e_display (view (n_s33 S33_RepresentationTooLong)) = "s33 representation too long") /\
    (e_display (view (n_s33 S33_IncorrectSignExtension)) = "s33 incorrect sign extension") /\
    (forall x, e_display (view (n_typeidx (TypeIdxE x))) = "failed decoding TypeIdx index") /\
    (forall x, e_display (view (n_funcidx (FuncIdxE x))) = "failed decoding FuncIdx index") /\
    (forall x, e_display (view (n_tableidx (TableIdxE x))) = "failed decoding TableIdx index") /\
    (forall x, e_display (view (n_memidx (MemIdxE x))) = "failed decoding MemIdx index") /\
    (forall x, e_display (view (n_globalidx (GlobalIdxE x))) = "failed decoding GlobalIdx index") /\
    (forall x, e_display (view (n_elemidx (ElemIdxE x))) = "failed decoding ElemIdx index") /\
    (forall x, e_display (view (n_dataidx (DataIdxE x))) = "failed decoding DataIdx index") /\
    (forall x, e_display (view (n_localidx (LocalIdxE x))) = "failed decoding LocalIdx index") /\
    (forall x, e_display (view (n_labelidx (LabelIdxE x))) = "failed decoding LabelIdx index") /\
    (forall x, e_display (view (n_tagidx (TagIdxE x))) = "failed decoding TagIdx index") /\
    (forall x, e_display (view (n_f32 (F32_ReadPayload x))) = "failed reading 4 bytes for f32") /\
    (forall x, e_display (view (n_f64 (F64_ReadPayload x))) = "failed reading 8 bytes for f64") /\
    (forall E (n : E -> node) (x : DecodeU32Error), e_display (view (n_list n (DecodeLength x))) = "failed decoding vector length") /\
    (forall x, e_display (view (n_byte_vector (BV_DecodeLength x))) = "failed decoding vector length") /\
    (forall x, e_display (view (n_byte_vector (BV_ReadElements x))) = "failed reading vector elements") /\
    (forall x, e_display (view (n_absheaptype (AHT_ReadMarkerByte x))) = "failed reading Heap type marker byte") /\
    (forall x, e_display (view (n_heaptype (HT_ReadMarkerByte x))) = "failed reading Heap type marker byte") /\
    (forall x, e_display (view (n_heaptype (HT_DecodeTypeIndex x))) = "failed decoding type index") /\
    (forall x, e_display (view (n_globaltype (GT_DecodeValueType x))) = "failed decoding Value type") /\
    (forall x, e_display (view (n_globaltype (GT_DecodeMutability x))) = "failed decoding Mutability") /\
    (forall x, e_display (view (n_comptype (CT_DecodeStruct x))) = "failed decoding Field type list") /\
    (forall x, e_display (view (n_comptype (CT_DecodeFuncParameters x))) = "failed decoding Function type parameters") /\
    (forall x, e_display (view (n_comptype (CT_DecodeFuncResults x))) = "failed decoding Function type results") /\
    (forall x, e_display (view (n_subtype (SubT_DecodeSupertypes x))) = "failed decoding supertypes") /\
    (forall x, e_display (view (n_subtype (SubT_DecodeCompType x))) = "failed decoding recursive subtype") /\
    (forall x, e_display (view (n_rectype (Rec_DecodeSubtypes x))) = "failed decoding subtypes list") /\
    (forall x, e_display (view (n_rectype (Rec_DecodeSubtype x))) = "failed decoding subtype") /\
    (forall x, e_display (view (n_limits (Lim_ReadFlagByte x))) = "failed reading flag byte") /\
    (forall x, e_display (view (n_limits (Lim_ReadMinLimit x))) = "failed reading minimum limit") /\
    (forall x, e_display (view (n_limits (Lim_ReadMaxLimit x))) = "failed reading maximum limit") /\
    (forall x, e_display (view (n_memtype (MemTypeE x))) = "failed decoding Memory type") /\
    (forall x, e_display (view (n_memarg (MA_Align x))) = "failed decoding alignment") /\
    (forall x, e_display (view (n_memarg (MA_Offset x))) = "failed decoding offset") /\
    (forall x, e_display (view (n_memarg (MA_MemIdx x))) = "failed decoding memory index") /\
    (forall x, e_display (view (n_laneidx (LaneIdxE x))) = "failed decoding Lane index") /\
    (forall x, e_display (view (n_blocktype (BT_ReadMarkerByte x))) = "failed reading block type marker byte") /\
    (forall x, e_display (view (n_blocktype (BT_DecodeIndex x))) = "failed decoding block type index") /\
    (forall x, e_display (view (n_catch (Catch_ReadMarkerByte x))) = "failed reading catch block marker byte") /\
    (forall x, e_display (view (n_control (Ctl_LabelIdx x))) = "failed decoding label index") /\
    (forall x, e_display (view (n_control (Ctl_DecodeLabelIdxVector x))) = "failed decoding label index") /\
    (forall x, e_display (view (n_control (Ctl_FuncIdx x))) = "failed decoding function index") /\
    (forall x, e_display (view (n_control (Ctl_TableIdx x))) = "failed decoding table index") /\
    (forall x, e_display (view (n_control (Ctl_TypeIdx x))) = "failed decoding type index") /\
    (forall x, e_display (view (n_control (Ctl_TagIdx x))) = "failed decoding tag index") /\
    (forall x, e_display (view (n_control (Ctl_DecodeCatchListError x))) = "failed decoding Catch list") /\
    (forall x, e_display (view (n_control (Ctl_BlockType x))) = "failed decoding block type") /\
    (e_display (view (n_control Ctl_UnexpectedElse)) = "unexpected `Else` token") /\
    (forall x, e_display (view (n_control (Ctl_ReadCastNullabilityMarker x))) = "failed decoding nullability for cast operation") /\
    (forall x, e_display (view (n_control (Ctl_HeapType x))) = "failed decoding heap type for cast operation") /\
    (forall x, e_display (view (n_reference (Ref_HeapType x))) = "failed decoding heap type") /\
    (forall x, e_display (view (n_reference (Ref_FuncIdx x))) = "failed decoding function index") /\
    (forall x, e_display (view (n_reference (Ref_ReadSubOpcode x))) = "failed reading sub-opcode") /\
    (forall x, e_display (view (n_aggregate (Agg_TypeIdx x))) = "failed decoding type index") /\
    (forall x, e_display (view (n_aggregate (Agg_FieldIndex x))) = "failed decoding field index") /\
    (forall x, e_display (view (n_aggregate (Agg_DataIdx x))) = "failed decoding data index") /\
    (forall x, e_display (view (n_aggregate (Agg_ElemIdx x))) = "failed decoding element index") /\
    (forall x, e_display (view (n_aggregate (Agg_ArrayFixedLength x))) = "failed decoding array fixed length") /\
    (forall x, e_display (view (n_parametric (Par_DecodeList x))) = "failed decoding value type vector") /\
    (forall x, e_display (view (n_variable (Var_LocalIdx x))) = "failed decoding Local index") /\
    (forall x, e_display (view (n_variable (Var_GlobalIdx x))) = "failed decoding Global index") /\
    (forall x, e_display (view (n_table_instr (Tab_TableIdx x))) = "failed decoding table index") /\
    (forall x, e_display (view (n_table_instr (Tab_ElemIdx x))) = "failed decoding element index") /\
    (forall x, e_display (view (n_memory_instr (Mem_DecodeMemarg x))) = "failed decoding Memarg") /\
    (forall x, e_display (view (n_memory_instr (Mem_DecodeDataIdx x))) = "failed decoding data index") /\
    (forall x, e_display (view (n_memory_instr (Mem_DecodeMemIdx x))) = "failed decoding memory index") /\
    (forall x, e_display (view (n_numeric (Num_ReadOpcode x))) = "failed reading 0xFC-prefixed numeric opcode") /\
    (forall x, e_display (view (n_vector (Vec_ReadOpcode x))) = "failed reading Vector opcode") /\
    (forall x, e_display (view (n_vector (Vec_ReadImmediateBytes x))) = "failed reading immediate bytes") /\
    (forall x, e_display (view (n_instr (PE_ReadOpcode x))) = "failed reading instruction opcode") /\
    (forall x, e_display (view (n_instr (PE_Control x))) = "failed decoding control instruction") /\
    (forall x, e_display (view (n_instr (PE_Reference x))) = "failed decoding reference instruction") /\
    (forall x, e_display (view (n_instr (PE_Aggregate x))) = "failed decoding aggregate instruction") /\
    (forall x, e_display (view (n_instr (PE_Parametric x))) = "failed decoding parametric instruction") /\
    (forall x, e_display (view (n_instr (PE_Variable x))) = "failed decoding variable instruction") /\
    (forall x, e_display (view (n_instr (PE_Table x))) = "failed decoding table instruction") /\
    (forall x, e_display (view (n_instr (PE_Memory x))) = "failed decoding memory instruction") /\
    (forall x, e_display (view (n_instr (PE_Numeric x))) = "failed decoding numeric instruction") /\
    (forall x, e_display (view (n_instr (PE_Vector x))) = "failed decoding vector instruction") /\
    (forall x, e_display (view (n_expr (Expr_ParseInstruction x))) = "failed parsing instruction") /\
    (e_display (view (n_expr Expr_UnexpectedElse)) = "unexpected Else delimiter") /\
    (forall x, e_display (view (n_custom_section (Cust_DecodeName x))) = "failed decoding custom section name") /\
    (forall x, e_display (view (n_custom_section (Cust_Io x))) = "failed reading custom section contents") /\
    (forall x, e_display (view (n_type_section (TypeSec_DecodeList x))) = "failed decoding Type section") /\
    (forall x, e_display (view (n_import (Imp_DecodeModuleName x))) = "failed decoding module name") /\
    (forall x, e_display (view (n_import (Imp_DecodeItemName x))) = "failed decoding item name") /\
    (forall x, e_display (view (n_import_section (ImportSec_DecodeList x))) = "failed decoding Import section") /\
    (forall x, e_display (view (n_function_section (FuncSec_DecodeList x))) = "failed decoding Function section") /\
    (forall x, e_display (view (n_table_section (TableSec_DecodeList x))) = "failed decoding Table section") /\
    (forall x, e_display (view (n_memory_section (MemSec_DecodeList x))) = "failed decoding Memory section") /\
    (forall x, e_display (view (n_tag_section (TagSec_DecodeList x))) = "failed decoding Tag section") /\
    (forall x, e_display (view (n_global (Glob_DecodeInit x))) = "failed decoding Init") /\
    (forall x, e_display (view (n_global_section (GlobalSec_DecodeList x))) = "failed decoding Global section") /\
    (forall x, e_display (view (n_export (Exp_ReadDescriptorMarkerByte x))) = "failed reading Export descriptor marker byte") /\
    (forall x, e_display (view (n_export (Exp_DecodeIndex x))) = "failed reading ExportDesc index") /\
    (forall x, e_display (view (n_export_section (ExportSec_DecodeList x))) = "failed decoding Export section") /\
    (forall x, e_display (view (n_start_section (StartSecE x))) = "failed decoding Start section") /\
    (forall x, e_display (view (n_elem (El_DecodeBitfield x))) = "failed decoding bitfield") /\
    (forall x, e_display (view (n_elem (El_DecodeOffsetExpression x))) = "failed decoding offset expression") /\
    (forall x, e_display (view (n_elem (El_DecodeElementKind x))) = "failed decoding Element kind") /\
    (forall x, e_display (view (n_elem (El_DecodeElementExpression x))) = "failed decoding Element expression") /\
    (forall x, e_display (view (n_elem (El_DecodeInit x))) = "failed decoding table.init expressions") /\
    (forall x, e_display (view (n_elem_section (ElemSec_DecodeList x))) = "failed decoding Element section") /\
    (forall x, e_display (view (n_datacount_section (DC_DecodeDataSegmentCount x))) = "failed decoding Data Segment count") /\
    (forall x, e_display (view (n_locals (Loc_DecodeLocalsCount x))) = "failed decoding count of function locals") /\
    (forall x, e_display (view (n_locals (Loc_DecodeLocalValType x))) = "failed decoding local Value type") /\
    (forall x, e_display (view (n_code (Code_DecodeFunctionSize x))) = "failed decoding size of function code") /\
    (forall x, e_display (view (n_code (Code_DecodeLocalsVector x))) = "failed decoding locals vector") /\
    (forall x, e_display (view (n_code (Code_DecodeFunctionBody x))) = "failed decoding function body expression") /\
    (forall x, e_display (view (n_code_section (CodeSec_DecodeList x))) = "failed decoding Code section") /\
    (forall x, e_display (view (n_data (Dat_DecodeBitfield x))) = "failed decoding bitfield") /\
    (forall x, e_display (view (n_data (Dat_DecodeOffsetExpr x))) = "failed decoding offset expression") /\
    (forall x, e_display (view (n_data (Dat_DecodeInitVector x))) = "failed decoding init byte vector") /\
    (forall x, e_display (view (n_data (Dat_DecodeMemIdx x))) = "failed decoding Memory index") /\
    (forall x, e_display (view (n_data_section (DataSec_DecodeList x))) = "failed decoding Data section") /\
    (forall x, e_display (view (n_preamble (Pre_Io x))) = "failed decoding preamble") /\
    (forall x, e_display (view (n_section_header (Hdr_ReadSectionIdByte x))) = "failed reading section ID byte") /\
    (forall x, e_display (view (n_section_header (Hdr_InvalidSectionId x))) = "invalid section ID") /\
    (forall x, e_display (view (n_section_header (Hdr_DecodeSectionSize x))) = "failed decoding section size") /\
    (forall x0 x1, e_display (view (n_module (DM_CodeFuncEntriesLenMismatch x0 x1))) = "number of Code entries does not match number of Function entries") /\
    (forall x0 x1, e_display (view (n_module (DM_DataCountMismatch x0 x1))) = "number of Data segments does not match the Data Count section") /\
    (e_display (view (n_module DM_DecodeDataCount)) = "failed decoding Data Count section") /\
    (e_display (view (n_module DM_DataIndexWithoutDataCount)) = "Data index was present in Code section, but Data Count section is missing") /\
    (forall x, e_display (view (n_tagtype (Tag_DecodeTypeIndex x))) = "failed decoding Tag type").
  Proof.
    repeat split.
  Qed.

  (** texts that contain values *)
  Theorem C56_numbers :
    (forall E (n : E -> node) (x0 : u32) (x1 : E), exists s0, decimal s0 x0 /\ e_display (view (n_list n (ParseElement x0 x1))) = "failed parsing vector element at position " ++ s0) /\
    (forall x, exists s0, hexadecimal s0 (Byte.to_N x) /\ e_display (view (n_invalid_absheaptype (InvalidAbsHeapTypeMarker x))) = "invalid AbsHeapType marker byte - expected one of " ++ "0x69 (Exn), 0x6A (Array), 0x6B (Struct), 0x6C (I31), 0x6D (Eq), 0x6E (Any), 0x6F (Extern), 0x70 (Func), 0x71 (None), 0x72 (NoExtern), 0x73 (NoFunc), 0x74 (NoExn)" ++ "; got " ++ s0) /\
    (forall x, exists s0, integer s0 x /\ e_display (view (n_heaptype (HT_NegativeTypeIndex x))) = "type index negative: " ++ s0) /\
    (forall x, exists s0, hexadecimal s0 (Byte.to_N x) /\ e_display (view (n_invalid_mut (InvalidMutabilityByte x))) = "invalid Mutability marker byte - expected one of " ++ "0x00 (Const), 0x01 (Var)" ++ "; got " ++ s0) /\
    (forall x0 x1, exists s0, hexadecimal s0 (Byte.to_N x0) /\ e_display (view (n_storagetype (ST_DecodeValTypeOrPackType x0 x1))) = "failed decoding as either PackType or ValType with marker byte " ++ s0) /\
    (forall x, exists s0, hexadecimal s0 (Byte.to_N x) /\ e_display (view (n_comptype (CT_InvalidMarkerByte x))) = "unexpected CompType marker byte: expected 0x5E, 0x5F or 0x60; got " ++ s0) /\
    (forall x, exists s0, hexadecimal s0 (Byte.to_N x) /\ e_display (view (n_limits (Lim_UnexpectedFlagByte x))) = "unexpected Limits flag byte: expected 0x00, 0x01, 0x04 or 0x05; got " ++ s0) /\
    (forall x, exists s0, hexadecimal s0 (Byte.to_N x) /\ e_display (view (n_tagtype (Tag_InvalidMarkerByte x))) = "unexpected TagType marker byte: expected " ++ "0x00" ++ "; got " ++ s0) /\
    (forall x, exists s0, hexadecimal s0 (Byte.to_N x) /\ e_display (view (n_externtype (Ext_InvalidMarkerByte x))) = "unexpected ExternType marker byte: expected 0x00, 0x01, 0x02, 0x03 or 0x04; got " ++ s0) /\
    (forall x, exists s0, decimal s0 x /\ e_display (view (n_memarg (MA_InvalidFlagsBit x))) = "Invalid alignment flag " ++ s0 ++ "; should be less than 2^7") /\
    (forall x, exists s0, integer s0 x /\ e_display (view (n_blocktype (BT_NegativeTypeIndex x))) = "blocktype Type index negative: " ++ s0) /\
    (forall x, exists s0, hexadecimal s0 (Byte.to_N x) /\ e_display (view (n_catch (Catch_InvalidMarkerByte x))) = "invalid marker byte: expected 0x00, 0x01, 0x02 or 0x03; got " ++ s0) /\
    (forall x, exists s0, hexadecimal s0 (Byte.to_N x) /\ e_display (view (n_control (Ctl_InvalidCastNullabilityMarker x))) = "invalid cast operation marker byte: expected 0x00, 0x01, 0x02 or 0x03; got " ++ s0) /\
    (forall x, exists s0, hexadecimal s0 x /\ e_display (view (n_vector (Vec_InvalidOpcode x))) = "unexpected Vector opcode: " ++ s0) /\
    (forall x, exists s0, hexadecimal s0 (Byte.to_N x) /\ e_display (view (n_instr (PE_InvalidOpcode x))) = "unexpected opcode: " ++ s0) /\
    (forall x, exists s0, hexadecimal s0 x /\ e_display (view (n_instr (PE_InvalidMarkerByteAfterFC x))) = "unexpected opcode after 0xFC marker byte: " ++ s0) /\
    (forall x, exists s0, hexadecimal s0 x /\ e_display (view (n_instr (PE_InvalidMarkerByteAfterFB x))) = "unexpected opcode after 0xFB marker byte: " ++ s0) /\
    (forall x, exists s0, hexadecimal s0 (Byte.to_N x) /\ e_display (view (n_table (Tbl_UnexpectedMarkerByte x))) = "unexpected marker byte: expected 0x00; got " ++ s0) /\
    (forall x, exists s0, hexadecimal s0 (Byte.to_N x) /\ e_display (view (n_invalid_exportdesc (InvalidExportDescMarker x))) = "invalid ExportDesc marker byte: expected 0x00 (func), 0x01 (table), 0x02 (mem), 0x03 (global), 0x04 (tag); got " ++ s0) /\
    (forall x, exists s0, hexadecimal s0 (Byte.to_N x) /\ e_display (view (n_elemkind (EK_InvalidElemKind x))) = "expected byte 0x00; got " ++ s0) /\
    (forall x, exists s0, decimal s0 x /\ e_display (view (n_elem (El_InvalidBitfield x))) = "invalid bitfield: expected value in range [0,7]; got " ++ s0) /\
    (forall x0 x1, exists s0 s1, decimal s0 x0 /\ decimal s1 x1 /\ e_display (view (n_locals (Loc_LocalsCountOutOfBound x0 x1))) = "too many locals: expected at most " ++ s0 ++ "; got " ++ s1) /\
    (forall x0 x1 x2, exists s0 s1 s2, decimal s0 x0 /\ decimal s1 x2 /\ decimal s2 x1 /\ e_display (view (n_code (Code_EntrySizeMismatch x0 x1 x2))) = "Code entry size mismatch: declared " ++ s0 ++ " bytes; consumed " ++ s1 ++ " (leftover: " ++ s2 ++ ")") /\
    (forall x, exists s0, decimal s0 x /\ e_display (view (n_data (Dat_InvalidBitfield x))) = "invalid bitfield: expected 0 (passive), 1 or 2 (active); got " ++ s0) /\
    (forall x, exists s0, hexadecimal s0 (Byte.to_N x) /\ e_display (view (n_invalid_section_id (InvalidSectionId x))) = "invalid section ID: expected one of " ++ "0x00 (Custom), 0x01 (Type), 0x02 (Import), 0x03 (Function), 0x04 (Table), 0x05 (Memory), 0x06 (Global), 0x07 (Export), 0x08 (Start), 0x09 (Element), 0x0A (Code), 0x0B (Data), 0x0C (DataCount), 0x0D (Tag)" ++ "; got " ++ s0) /\
    (forall x0 x1, exists s0 s1, kind_name s0 x0 /\ kind_name s1 x1 /\ e_display (view (n_module (DM_SectionOutOfOrder x0 x1))) = "out of order section: " ++ s0 ++ " cannot appear after " ++ s1) /\
    (forall x, exists s0, kind_name s0 x /\ e_display (view (n_module (DM_DuplicateSection x))) = "encountered duplicate section: " ++ s0) /\
    (forall x0 x1 x2, exists s0 s1 s2, kind_name s0 x0 /\ decimal s1 x1 /\ decimal s2 x2 /\ e_display (view (n_module (DM_SectionSizeMismatch x0 x1 x2))) = s0 ++ " section size mismatch: declared " ++ s1 ++ " bytes; got " ++ s2) /\
    (forall x0 x1, exists s0 s1, decimal s0 x1 /\ decimal s1 x0 /\ e_display (view (n_module (DM_DataCountDatasLenMismatch x0 x1))) = "Data Count section does not match Datas length: declared " ++ s0 ++ "; got " ++ s1).
  Proof.
    repeat match goal with |- _ /\ _ => split end; intros; repeat match goal with |- exists _, _ => eexists end.
    all: repeat (split; [first [apply dec_ok|apply decZ_ok|apply hex04_ok|apply kind_ok]|]).
    all: reflexivity.
  Qed.

  (** the one public error type that no error contains *)
  Theorem C56_packtype x : e_source (view (n_invalid_packtype (InvalidPackTypeMarker x))) = None /\
    exists s0, hexadecimal s0 (Byte.to_N x) /\ e_display (view (n_invalid_packtype (InvalidPackTypeMarker x))) = "invalid PackType marker byte - expected one of " ++ "0x77 (I16), 0x78 (I8)" ++ "; got " ++ s0.
  Proof. split; [reflexivity|]. eexists. split; [apply hex04_ok|reflexivity]. Qed.

  (** the text for a wrong preamble, of any bytes *)
  Theorem C56_preamble : forall x, exists s, byte_lines s x /\ e_display (view (n_preamble (Pre_Unexpected x))) =
"unexpected preamble: expected [
    0x0,
    0x61,
    0x73,
    0x6D,
    0x1,
    0x0,
    0x0,
    0x0,
]; got [
" ++ s ++ "]".
  Proof.
    intros x. exists (fold_right (fun b s => "    " ++ hex (Byte.to_N b) ++ "," ++ nl ++ s) "" x). split; [|reflexivity].
    induction x as [|b x IH]; [constructor|]. cbn [fold_right]. apply (byte_lines_cons (hex (Byte.to_N b))); [apply hex_ok|exact IH].
  Qed.

End Messages.
Print Assumptions C56_preamble.
Print Assumptions C56_forwarded.
Print Assumptions C56_linked.
Print Assumptions C56_hidden.
Print Assumptions C56_root.
Print Assumptions C56_text.
Print Assumptions C56_numbers.
Print Assumptions C56_packtype.
