(** src/decode/sections *)
From Verif Require Import Model.Prelude Model.Io Model.Ast Model.Errors Model.Integer Model.Helpers Model.Types Model.Instr.
Local Open Scope N_scope.

(** src/decode/sections/code.rs:79-83 *)
Record Local_ := mkLocal { l_count : u32; l_t : ValType }.
(** src/decode/sections/code.rs:21-27 *)
Record Code := mkCode { c_size : u32; c_locals : list Local_; c_expr : Expr; c_data_index : bool }.

(** src/decode/sections/element.rs:64-68 *)
Definition funcidx_into_reffunc (idxs : list FuncIdx) : list Expr := map (fun x => [I_RefFunc x]) idxs.

(** src/decode/sections/export.rs:56-67 *)
Definition externidx_from (b : byte) (idx : u32) : ExternIdx + InvalidExportDescMarkerByte :=
  switch (b2n b)
    [ (P1 0x00, inl (EI_Func idx))
    ; (P1 0x01, inl (EI_Table idx))
    ; (P1 0x02, inl (EI_Mem idx))
    ; (P1 0x03, inl (EI_Global idx))
    ; (P1 0x04, inl (EI_Tag idx)) ]
    (inr (InvalidExportDescMarker b)).

Section Sections.
  Context {env : Env} {R : Type} `{Reader R}.

  (** [|r| decode_expr(r).map(|(expr, _)| expr)] *)
  (** src/decode/sections/element.rs:61-164 (initialisers) *)
  Definition decode_expr_only : M R ParseExpressionError Expr :=
    '(e, _) <- decode_expr ;; ret e.

  (** src/decode/sections/custom.rs:15-23 *)
  Definition decode_section_custom : M R DecodeCustomSectionError CustomSection :=
    name <- map_err Cust_DecodeName decode_name ;;
    contents <- map_err Cust_Io read_to_end ;;
    ret (mkCustom name contents).

  (** src/decode/sections/type.rs:13-17 *)
  Definition decode_type_section : M R DecodeTypeSectionError (list RecType) :=
    map_err TypeSec_DecodeList (decode_list decode_rectype).

  (** src/decode/sections/import.rs:36-46 *)
  Definition parse_import : M R DecodeImportError Import :=
    module_name <- map_err Imp_DecodeModuleName decode_name ;;
    item_name <- map_err Imp_DecodeItemName decode_name ;;
    extern_type <- map_err Imp_DecodeExternType decode_externtype ;;
    ret (mkImport module_name item_name extern_type).
  (** src/decode/sections/import.rs:14-18 *)
  Definition decode_import_section : M R DecodeImportSectionError (list Import) :=
    map_err ImportSec_DecodeList (decode_list parse_import).

  (** src/decode/sections/function.rs:13-17 *)
  Definition decode_function_section : M R DecodeFunctionSectionError (list TypeIdx) :=
    map_err FuncSec_DecodeList (decode_list decode_typeidx).

  (** src/decode/sections/table.rs:40-58 *)
  Definition decode_table : M R DecodeTableError Table :=
    b0 <- map_err Tbl_Io read_byte ;;                                           (* 41 *)
    if b2n b0 =? 0x40 then                                                      (* 42 *)
      b <- map_err Tbl_Io read_byte ;;                                          (* 43 *)
      if negb (b2n b =? 0x00) then throw (Tbl_UnexpectedMarkerByte b)           (* 44-46 *)
      else
        tt <- map_err Tbl_DecodeTableType decode_tabletype ;;                   (* 47 *)
        e <- map_err Tbl_DecodeExpression decode_expr_only ;;                   (* 48 *)
        ret (mkTable tt e)
    else
      with_chain b0 (                                                           (* 54 *)
        tt <- map_err Tbl_DecodeTableType decode_tabletype ;;                   (* 55 *)
        ret (mkTable tt [I_RefNull (ht (tt_reftype tt))])).                     (* 56-57 *)
  (** src/decode/sections/table.rs:16-20 *)
  Definition decode_table_section : M R DecodeTableSectionError (list Table) :=
    map_err TableSec_DecodeList (decode_list decode_table).

  (** src/decode/sections/memory.rs:13-17 *)
  Definition decode_memory_section : M R DecodeMemorySectionError (list MemType) :=
    map_err MemSec_DecodeList (decode_list parse_memtype).

  (** src/decode/sections/tag.rs:13-17 *)
  Definition decode_tag_section : M R DecodeTagSectionError (list TagType) :=
    map_err TagSec_DecodeList (decode_list decode_tagtype).

  (** src/decode/sections/global.rs:29-34 *)
  Definition parse_global : M R DecodeGlobalError Global :=
    t <- map_err Glob_DecodeGlobalType decode_globaltype ;;
    init <- map_err Glob_DecodeInit decode_expr_only ;;
    ret (mkGlobal t init).
  (** src/decode/sections/global.rs:14-18 *)
  Definition decode_global_section : M R DecodeGlobalSectionError (list Global) :=
    map_err GlobalSec_DecodeList (decode_list parse_global).

  (** src/decode/sections/export.rs:37-48 *)
  Definition parse_export : M R DecodeExportError Export :=
    name <- map_err Exp_DecodeName decode_name ;;
    desc_kind <- map_err Exp_ReadDescriptorMarkerByte read_byte ;;
    idx <- map_err Exp_DecodeIndex decode_u32 ;;
    match externidx_from desc_kind idx with
    | inl desc => ret (mkExport name desc)
    | inr e => throw (Exp_InvalidDescriptorMarkerByte e)
    end.
  (** src/decode/sections/export.rs:16-20 *)
  Definition decode_export_section : M R DecodeExportSectionError (list Export) :=
    map_err ExportSec_DecodeList (decode_list parse_export).

  (** src/decode/sections/start.rs:10-14 *)
  Definition decode_start_section : M R DecodeStartSectionError FuncIdx :=
    map_err StartSecE decode_funcidx.

  (** src/decode/sections/element.rs:175-187 *)
  Definition parse_elemkind : M R DecodeElementKindError RefType :=
    b <- map_err EK_Io read_byte ;;
    if negb (b2n b =? 0x00) then throw (EK_InvalidElemKind b)
    else ret (mkRefType true (Ht AH_Func)).

  (** src/decode/sections/element.rs:61-160 *)
  Definition parse_elem : M R DecodeElementError Elem :=
    bitfield <- map_err El_DecodeBitfield decode_u32 ;;                         (* 62 *)
    switch bitfield
      [ (P1 0,                                                                  (* 71-85 *)
           e <- map_err El_DecodeOffsetExpression decode_expr_only ;;
           y <- map_err El_DecodeFuncIdxVector (decode_list decode_funcidx) ;;
           ret (mkElem (mkRefType false (Ht AH_Func)) (funcidx_into_reffunc y) (EM_Active 0 e)))
      ; (P1 1,                                                                  (* 86-90 *)
           rt <- map_err El_DecodeElementKind parse_elemkind ;;
           y <- map_err El_DecodeFuncIdxVector (decode_list decode_funcidx) ;;
           ret (mkElem rt (funcidx_into_reffunc y) EM_Passive))
      ; (P1 2,                                                                  (* 91-105 *)
           x <- map_err El_DecodeTableIdx decode_tableidx ;;
           e <- map_err El_DecodeElementExpression decode_expr_only ;;
           rt <- map_err El_DecodeElementKind parse_elemkind ;;
           y <- map_err El_DecodeFuncIdxVector (decode_list decode_funcidx) ;;
           ret (mkElem rt (funcidx_into_reffunc y) (EM_Active x e)))
      ; (P1 3,                                                                  (* 106-110 *)
           rt <- map_err El_DecodeElementKind parse_elemkind ;;
           y <- map_err El_DecodeFuncIdxVector (decode_list decode_funcidx) ;;
           ret (mkElem rt (funcidx_into_reffunc y) EM_Declare))
      ; (P1 4,                                                                  (* 111-126 *)
           e <- map_err El_DecodeOffsetExpression decode_expr_only ;;
           el <- map_err El_DecodeInit (decode_list decode_expr_only) ;;
           ret (mkElem (mkRefType true (Ht AH_Func)) el (EM_Active 0 e)))
      ; (P1 5,                                                                  (* 127-132 *)
           rt <- map_err El_DecodeReferenceType decode_reftype ;;
           el <- map_err El_DecodeInit (decode_list decode_expr_only) ;;
           ret (mkElem rt el EM_Passive))
      ; (P1 6,                                                                  (* 133-148 *)
           x <- map_err El_DecodeTableIdx decode_tableidx ;;
           e <- map_err El_DecodeOffsetExpression decode_expr_only ;;
           rt <- map_err El_DecodeReferenceType decode_reftype ;;
           el <- map_err El_DecodeInit (decode_list decode_expr_only) ;;
           ret (mkElem rt el (EM_Active x e)))
      ; (P1 7,                                                                  (* 149-155 *)
           rt <- map_err El_DecodeReferenceType decode_reftype ;;
           el <- map_err El_DecodeInit (decode_list decode_expr_only) ;;
           ret (mkElem rt el EM_Declare)) ]
      (throw (El_InvalidBitfield bitfield)).                                    (* 156 *)
  (** src/decode/sections/element.rs:21-25 *)
  Definition decode_element_section : M R DecodeElementSectionError (list Elem) :=
    map_err ElemSec_DecodeList (decode_list parse_elem).

  (** src/decode/sections/data_count.rs:11-15 *)
  Definition decode_datacount_section : M R DecodeDataCountSectionError u32 :=
    map_err DC_DecodeDataSegmentCount decode_u32.

  (** src/decode/sections/code.rs:97-116; the [&mut u64] argument becomes an
      argument and a result *)
  Definition parse_code_local (max_locals expanded_locals : u64) : M R DecodeCodeLocalsError (Local_ * u64) :=
    count <- map_err Loc_DecodeLocalsCount decode_u32 ;;                        (* 102 *)
    expanded_locals <- add_u64 expanded_locals count ;;                         (* 104 *)
    if max_locals <? expanded_locals                                            (* 105 *)
    then throw (Loc_LocalsCountOutOfBound max_locals expanded_locals)
    else
      t <- map_err Loc_DecodeLocalValType decode_valtype ;;                     (* 114 *)
      ret (mkLocal count t, expanded_locals).
End Sections.

Section Code.
  Context {env : Env} {R : Type} `{Reader R}.

  (** src/decode/sections/code.rs:50-77 *)
  Definition parse_code : M R DecodeCodeError Code :=
    size <- map_err Code_DecodeFunctionSize decode_u32 ;;                       (* 51 *)
    '((locals, (expr, encountered_data_index)), limit) <-
      with_take size (                                                          (* 53 *)
        locals <- map_err Code_DecodeLocalsVector
                    (decode_list_st (parse_code_local (2 ^ 32 - 1)) 0) ;;       (* 54-59 *)
        e <- map_err Code_DecodeFunctionBody decode_expr ;;                     (* 61 *)
        ret (locals, e)) ;;
    if negb (limit =? 0) then                                                   (* 63 *)
      consumed <- sub_u64 size limit ;;                                         (* 67 *)
      throw (Code_EntrySizeMismatch size limit consumed)
    else ret (mkCode size locals expr encountered_data_index).                  (* 71-76 *)
  (** src/decode/sections/code.rs:15-19 *)
  Definition decode_code_section : M R DecodeCodeSectionError (list Code) :=
    map_err CodeSec_DecodeList (decode_list parse_code).

  (** src/decode/sections/data.rs:42-74 *)
  Definition parse_data : M R DecodeDataSegmentError Data :=
    n <- map_err Dat_DecodeBitfield decode_u32 ;;                               (* 46 *)
    switch n
      [ (P1 0,                                                                  (* 47-56 *)
           e <- map_err Dat_DecodeOffsetExpr decode_expr_only ;;
           init <- map_err Dat_DecodeInitVector decode_byte_vector ;;
           ret (mkData init (DM_Active 0 e)))
      ; (P1 1,                                                                  (* 57 *)
           init <- map_err Dat_DecodeInitVector decode_byte_vector ;;
           ret (mkData init DM_Passive))
      ; (P1 2,                                                                  (* 58-69 *)
           x <- map_err Dat_DecodeMemIdx decode_memidx ;;
           e <- map_err Dat_DecodeOffsetExpr decode_expr_only ;;
           init <- map_err Dat_DecodeInitVector decode_byte_vector ;;
           ret (mkData init (DM_Active x e))) ]
      (throw (Dat_InvalidBitfield n)).                                          (* 70 *)
  (** src/decode/sections/data.rs:18-22 *)
  Definition decode_data_section : M R DecodeDataSectionError (list Data) :=
    map_err DataSec_DecodeList (decode_list parse_data).
End Code.
