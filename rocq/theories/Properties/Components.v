(** C08, C10, C12-C16, C39-C42: decoders below the level of modules.  [decodes]
    (Spec/Streams.v): succeeds exactly on the words of the language, with their
    value, consuming exactly them; otherwise an error. *)
From Verif Require Import Model.Prelude Model.Io Model.Ast Model.Errors Model.Integer Model.Helpers Model.Types Model.Instr Model.Sections.
From Verif Require Import Spec.Lang Spec.Types Spec.Instr Spec.Module Spec.Streams.
From Verif Require Import Proofs.Machine Proofs.Leb Proofs.GHelpers Proofs.GTypes Proofs.GInstr Proofs.GControl Proofs.GSections Proofs.Safe Proofs.SafeWalk Proofs.Final Proofs.Parses Proofs.Utf8 Proofs.Components.
Local Open Scope N_scope.

(** ** C08 vectors *)
(** Whatever decoder is used for the elements: if it decodes [X], a vector of
    them decodes [Blist X] (u32 length, then exactly that many elements). *)
Theorem C08_vector {E A} (p : Env -> M (list byte) E A) (X : lang A) :
  decodes p X -> decodes (fun env => decode_list (p env)) (Blist X).
Proof. exact (decodes_list p X). Qed.
Theorem C08_byte_vector : decodes (fun env => decode_byte_vector) (Blist Bbyte).
Proof. eapply decodes_of; intros env; [apply parses_byte_vector|apply safe_byte_vector]. Qed.
Example C08_vector_ex env : sufficient env 4 ->
  decode_list decode_u32 [x02; x80; x01; x07] = (Ok [128; 7]%N, []).
Proof.
  intros HS. apply (decodes_complete _ _ (C08_vector _ _ (decodes_of (fun _ => decode_u32) Bu32 _ _ (fun _ => parses_u32) (fun _ => safe_u32 _))) env [128; 7]%N [x02; x80; x01; x07] []).
  - exact HS.
  - apply (Blist_intro _ [128; 7]%N [x02] [x80; x01; x07]); [apply (Bu_last 32 x02); reflexivity|].
    apply (Bseq_cons _ 128%N [7%N] [x80; x01] [x07]).
    + apply (Bu_more 32 x80 1); [vm_compute; congruence|reflexivity|]. apply (Bu_last 25 x01); reflexivity.
    + apply (Bseq_cons _ 7%N [] [x07] []); [apply (Bu_last 32 x07); reflexivity|constructor].
Qed.

(** ** C10 names *)
Theorem C10_name : decodes (fun env => decode_name) Bname.
Proof. eapply decodes_of; intros env; [apply parses_name|apply safe_name]. Qed.
(** A vector of bytes that is not UTF-8 is rejected as such. *)
Theorem C10_not_utf8 env s bs rest : sufficient env (length (bs ++ rest)) ->
  Blist Bbyte s bs -> ~ utf8 s -> decode_name (bs ++ rest) = (Err (Name_Utf8 s), rest).
Proof. exact (name_not_utf8 env s bs rest). Qed.
(** [utf8] excludes surrogates and overlong forms, and accepts the rest of Unicode up to 4 bytes. *)
Example C10_euro : utf8 [xe2; x82; xac].
Proof. exists [8364%N]. split; [constructor; [left; vm_compute; reflexivity|constructor]|vm_compute; reflexivity]. Qed.
Example C10_surrogate : ~ utf8 [xed; xa0; x80].
Proof. rewrite <- from_utf8_iff. vm_compute. discriminate. Qed.
Example C10_overlong : ~ utf8 [xc0; x80].
Proof. rewrite <- from_utf8_iff. vm_compute. discriminate. Qed.
Example C10_above : ~ utf8 [xf4; x90; x80; x80].
Proof. rewrite <- from_utf8_iff. vm_compute. discriminate. Qed.

(** ** C12 value, reference and heap types *)
Theorem C12_absheaptype : decodes (fun _ => decode_absheaptype) Babsheaptype.
Proof. eapply decodes_of; intros env; [apply parses_absheaptype|apply safe_absheaptype]. Qed.
Theorem C12_heaptype : decodes (fun _ => decode_heaptype) Bheaptype.
Proof. eapply decodes_of; intros env; [apply parses_heaptype|apply safe_heaptype]. Qed.
Theorem C12_reftype : decodes (fun _ => decode_reftype) Breftype.
Proof. eapply decodes_of; intros env; [apply parses_reftype|apply safe_reftype]. Qed.
Theorem C12_valtype : decodes (fun _ => decode_valtype) Bvaltype.
Proof. eapply decodes_of; intros env; [apply parses_valtype|apply safe_valtype]. Qed.
Example C12_ref_null_idx : Bvaltype (VT_Ref (mkRefType true (HtIdx 5))) [x63; x05].
Proof. apply Bvt_ref, Brt_ref_null, Bht_idx. apply (Bs_pos 33 x05); vm_compute; reflexivity. Qed.

(** ** C13 result, composite, sub and recursive types *)
Theorem C13_resulttype : decodes (fun env => decode_result_type) Bresulttype.
Proof. eapply decodes_of; intros env; [apply parses_resulttype|apply safe_result_type]. Qed.
Theorem C13_storagetype : decodes (fun _ => decode_storagetype) Bstoragetype.
Proof. eapply decodes_of; intros env; [apply parses_storagetype|apply safe_storagetype]. Qed.
Theorem C13_fieldtype : decodes (fun _ => decode_fieldtype) Bfieldtype.
Proof. eapply decodes_of; intros env; [apply parses_fieldtype|apply safe_fieldtype]. Qed.
Theorem C13_comptype : decodes (fun env => decode_comptype) Bcomptype.
Proof. eapply decodes_of; intros env; [apply parses_comptype|apply safe_comptype]. Qed.
Theorem C13_subtype : decodes (fun env => decode_subtype) Bsubtype.
Proof. eapply decodes_of; intros env; [apply parses_subtype|apply safe_subtype]. Qed.
Theorem C13_rectype : decodes (fun env => decode_rectype) Brectype.
Proof. eapply decodes_of; intros env; [apply parses_rectype|apply safe_rectype]. Qed.
Theorem C13_type_section : decodes (fun env => decode_type_section) (Blist Brectype).
Proof. eapply decodes_of; intros env; [apply parses_map_err, parses_list, parses_rectype|apply safe_type_section]. Qed.
(** the shorthand: a lone composite type is a final subtype without supertypes in its own group *)
Theorem C13_shorthand ct bs : Bcomptype ct bs -> Brectype [mkSubType true [] ct] bs.
Proof. intros HB. apply Brec_short, Bsub_short, HB. Qed.
Example C13_rec_ex : Brectype [mkSubType false [0%N] (CT_Struct [mkFieldType Var (ST_Pack PT_I8)])] [x4e; x01; x50; x01; x00; x5f; x01; x78; x01].
Proof.
  apply (Brec_group _ [x01; x50; x01; x00; x5f; x01; x78; x01]).
  assert (One : Bu32 1 [x01]) by (apply (Bu_last 32 x01); reflexivity).
  assert (Zero : Bu32 0 [x00]) by (apply (Bu_last 32 x00); reflexivity).
  apply (Blist_intro _ [_] [x01] [x50; x01; x00; x5f; x01; x78; x01]); [exact One|].
  apply (Bseq_cons _ _ [] [x50; x01; x00; x5f; x01; x78; x01] []); [|constructor].
  apply (Bsub_open [0%N] _ [x01; x00] [x5f; x01; x78; x01]).
  - apply (Blist_intro _ [0%N] [x01] [x00]); [exact One|]. apply (Bseq_cons _ _ [] [x00] []); [exact Zero|constructor].
  - apply (Bct_struct _ [x01; x78; x01]). apply (Blist_intro _ [_] [x01] [x78; x01]); [exact One|].
    apply (Bseq_cons _ _ [] [x78; x01] []); [|constructor]. apply (Bft _ _ [x78] [x01]); [apply Bst_pack; constructor|constructor].
Qed.

(** ** C14 limits, memory, table, global, tag and external types *)
Theorem C14_limits : decodes (fun _ => parse_limits) Blimits.
Proof. eapply decodes_of; intros env; [apply parses_limits|apply safe_limits]. Qed.
Theorem C14_memtype : decodes (fun _ => parse_memtype) Bmemtype.
Proof. eapply decodes_of; intros env; [apply parses_memtype|apply safe_memtype]. Qed.
Theorem C14_tabletype : decodes (fun _ => decode_tabletype) Btabletype.
Proof. eapply decodes_of; intros env; [apply parses_tabletype|apply safe_tabletype]. Qed.
Theorem C14_globaltype : decodes (fun _ => decode_globaltype) Bglobaltype.
Proof. eapply decodes_of; intros env; [apply parses_globaltype|apply safe_globaltype]. Qed.
Theorem C14_tagtype : decodes (fun _ => decode_tagtype) Btagtype.
Proof. eapply decodes_of; intros env; [apply parses_tagtype|apply safe_tagtype]. Qed.
Theorem C14_externtype : decodes (fun _ => decode_externtype) Bexterntype.
Proof. eapply decodes_of; intros env; [apply parses_externtype|apply safe_externtype]. Qed.
Theorem C14_memory_section : decodes (fun env => decode_memory_section) (Blist Bmemtype).
Proof. eapply decodes_of; intros env; [apply parses_map_err, parses_list, parses_memtype|apply safe_memory_section]. Qed.
Theorem C14_tag_section : decodes (fun env => decode_tag_section) (Blist Btagtype).
Proof. eapply decodes_of; intros env; [apply parses_map_err, parses_list, parses_tagtype|apply safe_tag_section]. Qed.
Theorem C14_global_section : decodes (fun env => decode_global_section) (Blist Bglobal).
Proof. eapply decodes_of; intros env; [apply parses_map_err, parses_list, parses_global|apply safe_global_section]. Qed.
Example C14_limits_ex : Blimits (mkLimits AT_I64 1 (Some 2%N)) [x05; x01; x02].
Proof. apply (Blim_64max 1 2 [x01] [x02]); [apply (Bu_last 64 x01)|apply (Bu_last 64 x02)]; reflexivity. Qed.
(** unlisted flag, mutability and marker bytes, whatever follows *)
Theorem C14_bad_flag b rest : ~ In b [x00; x01; x04; x05] -> parse_limits (b :: rest) = (Err (Lim_UnexpectedFlagByte b), rest).
Proof. exact (limits_bad_flag b rest). Qed.
Theorem C14_bad_mutability t bs b rest : Bvaltype t bs -> b <> x00 -> b <> x01 ->
  decode_globaltype (bs ++ b :: rest) = (Err (GT_InvalidMutability (InvalidMutabilityByte b)), rest).
Proof. exact (globaltype_bad_mut t bs b rest). Qed.
Theorem C14_bad_tag b rest : b <> x00 -> decode_tagtype (b :: rest) = (Err (Tag_InvalidMarkerByte b), rest).
Proof. exact (tagtype_bad b rest). Qed.
Theorem C14_bad_extern b rest : ~ In b [x00; x01; x02; x03; x04] -> decode_externtype (b :: rest) = (Err (Ext_InvalidMarkerByte b), rest).
Proof. exact (externtype_bad b rest). Qed.

(** ** C15 block types *)
Theorem C15_blocktype : decodes (fun _ => decode_blocktype) Bblocktype.
Proof. eapply decodes_of; intros env; [apply parses_blocktype|apply safe_blocktype]. Qed.
(** no byte sequence can be read as two different block types, even if one
    reading takes fewer bytes than the other *)
Theorem C15_unambiguous bt1 bt2 bs1 bs2 rest1 rest2 :
  bs1 ++ rest1 = bs2 ++ rest2 -> Bblocktype bt1 bs1 -> Bblocktype bt2 bs2 -> bt1 = bt2 /\ bs1 = bs2.
Proof. exact (decodes_prefix_free _ _ C15_blocktype bt1 bt2 bs1 bs2 rest1 rest2). Qed.
(** in particular the three forms are disjoint *)
Theorem C15_disjoint t x bs : (Bvaltype t bs -> bs <> [x40] /\ ~ Bs33 (Z.of_N x) bs) /\ ~ Bs33 (Z.of_N x) [x40].
Proof. exact (blocktype_disjoint t x bs). Qed.
Example C15_index_ex : Bblocktype (BT_I 105) [xe9; x00] /\ decode_blocktype [xe9; x00] = (Ok (BT_I 105), []).
Proof. split; [|vm_compute; reflexivity]. apply Bbt_idx. apply (Bs_more 33 xe9 0 [x00]); [vm_compute; congruence|reflexivity|]. apply (Bs_pos 26 x00); vm_compute; reflexivity. Qed.

(** ** C16 memory arguments *)
Theorem C16_memarg : decodes (fun _ => decode_memarg) Bmemarg.
Proof. eapply decodes_of; intros env; [apply parses_memarg|apply safe_memarg]. Qed.
Theorem C16_bad_flags n bs rest : Bu32 n bs -> (2 ^ 7 <= n)%N -> decode_memarg (bs ++ rest) = (Err (MA_InvalidFlagsBit n), rest).
Proof. exact (memarg_bad_flags n bs rest). Qed.
Example C16_ex : Bmemarg (mkMemarg 3 2 7) [x42; x03; x07] /\ decode_memarg [x42; x03; x07] = (Ok (mkMemarg 3 2 7), []).
Proof.
  split; [|vm_compute; reflexivity]. apply (Bma_x 66 3 7 [x42] [x03] [x07]); [apply (Bu_last 32 x42); reflexivity|vm_compute; split; congruence|..].
  - apply (Bu_last 32 x03); reflexivity.
  - apply (Bu_last 64 x07); reflexivity.
Qed.

(** ** C39 element segments *)
Theorem C39_elem : decodes (fun env => parse_elem) Belem.
Proof. eapply decodes_of; intros env; [apply parses_elem|apply safe_elem]. Qed.
Theorem C39_element_section : decodes (fun env => decode_element_section) (Blist Belem).
Proof. eapply decodes_of; intros env; [apply parses_map_err, parses_list, parses_elem|apply safe_element_section]. Qed.
Theorem C39_bad_bitfield env n bs rest : Bu32 n bs -> (7 < n)%N -> @parse_elem env _ _ (bs ++ rest) = (Err (El_InvalidBitfield n), rest).
Proof. exact (elem_bad_bitfield env n bs rest). Qed.
Example C39_ex : Belem (mkElem (mkRefType true (Ht AH_Func)) [[I_RefFunc 4]] EM_Declare) [x03; x00; x01; x04].
Proof.
  apply (Belem_3 _ [4%N] [x03] [x00] [x01; x04]); [apply (Bu_last 32 x03); reflexivity|constructor|].
  apply (Blist_intro _ [4%N] [x01] [x04]); [apply (Bu_last 32 x01); reflexivity|].
  apply (Bseq_cons _ _ [] [x04] []); [apply (Bu_last 32 x04); reflexivity|constructor].
Qed.

(** ** C40 data segments *)
Theorem C40_data : decodes (fun env => parse_data) Bdata.
Proof. eapply decodes_of; intros env; [apply parses_data|apply safe_data]. Qed.
Theorem C40_data_section : decodes (fun env => decode_data_section) (Blist Bdata).
Proof. eapply decodes_of; intros env; [apply parses_map_err, parses_list, parses_data|apply safe_data_section]. Qed.
Theorem C40_bad_bitfield env n bs rest : Bu32 n bs -> (2 < n)%N -> @parse_data env _ _ (bs ++ rest) = (Err (Dat_InvalidBitfield n), rest).
Proof. exact (data_bad_bitfield env n bs rest). Qed.
Example C40_ex : Bdata (mkData [xaa; xbb] (DM_Active 0 [I_I32Const 1%Z])) [x00; x41; x01; x0b; x02; xaa; xbb].
Proof.
  apply (Bdata_0 _ _ [x00] [x41; x01; x0b] [x02; xaa; xbb]); [apply (Bu_last 32 x00); reflexivity| |].
  - apply (Bexpr_intro [_] [x41; x01]). apply (BIs_cons _ [] [x41; x01] []); [|constructor].
    apply (BI_op x41 (imm1 I_I32Const Bi32)); [vm_compute; tauto|]. constructor. apply (Bs_pos 32 x01); vm_compute; reflexivity.
  - apply (Blist_intro _ [xaa; xbb] [x02] [xaa; xbb]); [apply (Bu_last 32 x02); reflexivity|].
    apply (Bseq_cons _ xaa [xbb] [xaa] [xbb]); [reflexivity|]. apply (Bseq_cons _ xbb [] [xbb] []); [reflexivity|constructor].
Qed.

(** ** C41 tables *)
Theorem C41_table : decodes (fun env => decode_table) Btable.
Proof. eapply decodes_of; intros env; [apply parses_table|apply safe_table]. Qed.
Theorem C41_table_section : decodes (fun env => decode_table_section) (Blist Btable).
Proof. eapply decodes_of; intros env; [apply parses_map_err, parses_list, parses_table|apply safe_table_section]. Qed.
(** the one-byte lookahead is harmless: no table type starts with 0x40 *)
Theorem C41_lookahead t bs : ~ Btabletype t (x40 :: bs).
Proof. exact (tabletype_not_40 t bs). Qed.
Example C41_default : Btable (mkTable (mkTableType (mkRefType false (HtIdx 0)) (mkLimits AT_I32 1 None)) [I_RefNull (HtIdx 0)]) [x64; x00; x00; x01].
Proof.
  apply (Btable_plain (mkTableType (mkRefType false (HtIdx 0)) (mkLimits AT_I32 1 None))). apply (Btbt _ _ [x64; x00] [x00; x01]).
  - apply (Brt_ref _ [x00]), Bht_idx. apply (Bs_pos 33 x00); vm_compute; reflexivity.
  - apply (Blim_32 1 [x01]). apply (Bu_last 64 x01); reflexivity.
Qed.

(** ** C42 imports and exports *)
Theorem C42_import : decodes (fun env => parse_import) Bimport.
Proof. eapply decodes_of; intros env; [apply parses_import|apply safe_import]. Qed.
Theorem C42_import_section : decodes (fun env => decode_import_section) (Blist Bimport).
Proof. eapply decodes_of; intros env; [apply parses_map_err, parses_list, parses_import|apply safe_import_section]. Qed.
Theorem C42_export : decodes (fun env => parse_export) Bexport.
Proof. eapply decodes_of; intros env; [apply parses_export|apply safe_export]. Qed.
Theorem C42_export_section : decodes (fun env => decode_export_section) (Blist Bexport).
Proof. eapply decodes_of; intros env; [apply parses_map_err, parses_list, parses_export|apply safe_export_section]. Qed.
(** A wrong export descriptor byte is reported once the index after it has been read. *)
Theorem C42_bad_export env nm b x bs1 bs2 rest : sufficient env (length (bs1 ++ b :: bs2 ++ rest)) ->
  Bname nm bs1 -> Bidx x bs2 -> ~ In b [x00; x01; x02; x03; x04] ->
  parse_export (bs1 ++ b :: bs2 ++ rest) = (Err (Exp_InvalidDescriptorMarkerByte (InvalidExportDescMarker b)), rest).
Proof. exact (export_bad env nm b x bs1 bs2 rest). Qed.
Example C42_ex : Bexport (mkExport [x66] (EI_Func 2)) [x01; x66; x00; x02].
Proof.
  apply (Bexport_intro [x66] _ [x01; x66] [x00; x02]).
  - split; [|exists [102%N]; split; [constructor; [left; vm_compute; reflexivity|constructor]|reflexivity]].
    apply (Blist_intro _ [x66] [x01] [x66]); [apply (Bu_last 32 x01); reflexivity|]. apply (Bseq_cons _ _ [] [x66] []); [reflexivity|constructor].
  - apply Bei_func. apply (Bu_last 32 x02); reflexivity.
Qed.
