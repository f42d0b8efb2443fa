(** src/decode/types *)
From Verif Require Import Model.Prelude Model.Io Model.Ast Model.Errors Model.Integer Model.Helpers.

(** src/decode/types/heaptype.rs:46-59 with src/decode/mod.rs:37-42 [from_marker] *)
Definition absheaptype_from_marker (b : byte) : option AbsHeapType :=
  assocN (b2n b)
    [ (0x69%N, AH_Exn)
    ; (0x6A%N, AH_Array)
    ; (0x6B%N, AH_Struct)
    ; (0x6C%N, AH_I31)
    ; (0x6D%N, AH_Eq)
    ; (0x6E%N, AH_Any)
    ; (0x6F%N, AH_Extern)
    ; (0x70%N, AH_Func)
    ; (0x71%N, AH_None)
    ; (0x72%N, AH_NoExtern)
    ; (0x73%N, AH_NoFunc)
    ; (0x74%N, AH_NoExn) ].

(** src/decode/types/globaltype.rs:38-41 with src/decode/mod.rs:37-42 *)
Definition mut_from_marker (b : byte) : option Mut :=
  assocN (b2n b)
    [ (0x00%N, Const)
    ; (0x01%N, Var) ].

(** src/decode/types/comptype.rs:135-138 with src/decode/mod.rs:37-42 *)
Definition packtype_from_marker (b : byte) : option PackType :=
  assocN (b2n b)
    [ (0x77%N, PT_I16)
    ; (0x78%N, PT_I8) ].

(** [u32::try_from(x: i64).unwrap()] *)
(** src/decode/instructions.rs:1107, src/decode/types/heaptype.rs:22-60 *)
Definition u32_try_from_unwrap {R E} (x : Z) : M R E u32 :=
  if ((0 <=? x) && (x <? 2 ^ 32))%Z then ret (Z.to_N x) else panic_with UnwrapFailed.

Section Types.
  Context {env : Env}.
  
  (** src/decode/types/heaptype.rs:91-96 *)
  Definition decode_absheaptype {R} `{Reader R} : M R DecodeAbsHeapTypeError AbsHeapType :=
    marker <- map_err AHT_ReadMarkerByte read_byte ;;
    match absheaptype_from_marker marker with
    | Some t => ret t
    | None => throw (AHT_InvalidMarkerByte (InvalidAbsHeapTypeMarker marker))
    end.

  (** src/decode/types/heaptype.rs:23-39 *)
  Definition decode_heaptype {R} `{Reader R} : M R DecodeHeapTypeError HeapType :=
    b <- map_err HT_ReadMarkerByte read_byte ;;
    match absheaptype_from_marker b with
    | Some t => ret (Ht t)
    | None =>
        with_chain b (
          x <- map_err HT_DecodeTypeIndex decode_s33 ;;
          if (x <? 0)%Z then throw (HT_NegativeTypeIndex x)
          else
            x <- u32_try_from_unwrap x ;;
            ret (HtIdx x))
    end.

  (** src/decode/types/reftype.rs:22-46 *)
  Definition decode_reftype {R} `{Reader R} : M R DecodeRefTypeError RefType :=
    marker <- map_err RT_Io read_byte ;;
    switch (b2n marker)
      [ (P1 0x63, h <- map_err RT_DecodeHeapType decode_heaptype ;; ret (mkRefType true h))
      ; (P1 0x64, h <- map_err RT_DecodeHeapType decode_heaptype ;; ret (mkRefType false h)) ]
      (aht <- with_chain marker (map_err RT_InvalidMarkerByte decode_absheaptype) ;;
       ret (mkRefType true (Ht aht))).

  (** src/decode/types/valtype.rs:20-32 *)
  Definition decode_valtype {R} `{Reader R} : M R DecodeValTypeError ValType :=
    b <- map_err VTE_Io read_byte ;;
    switch (b2n b)
      [ (P1 0x7F, ret (VT_Num Int32))
      ; (P1 0x7E, ret (VT_Num Int64))
      ; (P1 0x7D, ret (VT_Num Float32))
      ; (P1 0x7C, ret (VT_Num Float64))
      ; (P1 0x7B, ret (VT_Vec V128)) ]
      (with_chain b (
         t <- map_err VTE_DecodeRefType decode_reftype ;;
         ret (VT_Ref t))).

  (** src/decode/types/resulttype.rs:14-18 *)
  Definition decode_result_type {R} `{Reader R} : M R DecodeResultTypeError ResultType :=
    map_err RTE_DecodeList (decode_list decode_valtype).

  (** src/decode/types/globaltype.rs:23-29 *)
  Definition decode_globaltype {R} `{Reader R} : M R DecodeGlobalTypeError GlobalType :=
    valtype <- map_err GT_DecodeValueType decode_valtype ;;
    b <- map_err GT_DecodeMutability read_byte ;;
    match mut_from_marker b with
    | Some m => ret (mkGlobalType m valtype)
    | None => throw (GT_InvalidMutability (InvalidMutabilityByte b))
    end.

  (** src/decode/types/comptype.rs:104-119 *)
  Definition decode_storagetype {R} `{Reader R} : M R DecodeStorageTypeError StorageType :=
    marker <- map_err ST_ReadMarkerByte read_byte ;;
    match packtype_from_marker marker with
    | Some pt => ret (ST_Pack pt)
    | None =>
        with_chain marker (
          t <- map_err (ST_DecodeValTypeOrPackType marker) decode_valtype ;;
          ret (ST_Val t))
    end.

  (** src/decode/types/comptype.rs:79-87 *)
  Definition decode_fieldtype {R} `{Reader R} : M R DecodeFieldTypeError FieldType :=
    zt <- map_err FT_DecodeStorageType decode_storagetype ;;
    b <- map_err FT_ReadMutabilityMarkerByte read_byte ;;
    match mut_from_marker b with
    | Some m => ret (mkFieldType m zt)
    | None => throw (FT_DecodeMutability (InvalidMutabilityByte b))
    end.

  (** src/decode/types/comptype.rs:36-61 *)
  Definition decode_comptype {R} `{Reader R} : M R DecodeCompTypeError CompType :=
    marker <- map_err CT_ReadMarkerByte read_byte ;;
    switch (b2n marker)
      [ (P1 0x5E, ft <- map_err CT_DecodeFieldType decode_fieldtype ;; ret (CT_Array ft))
      ; (P1 0x5F, ft <- map_err CT_DecodeStruct (decode_list decode_fieldtype) ;; ret (CT_Struct ft))
      ; (P1 0x60, parameters <- map_err CT_DecodeFuncParameters decode_result_type ;;
                  results <- map_err CT_DecodeFuncResults decode_result_type ;;
                  ret (CT_Func parameters results)) ]
      (throw (CT_InvalidMarkerByte marker)).

  (** src/decode/types/rectype.rs:54-81 *)
  Definition decode_subtype {R} `{Reader R} : M R DecodeSubTypeError SubType :=
    marker <- map_err SubT_Io read_byte ;;
    switch (b2n marker)
      [ (POr (P1 0x4F) (P1 0x50),
           x <- map_err SubT_DecodeSupertypes (decode_list decode_typeidx) ;;
           ct <- map_err SubT_DecodeCompType decode_comptype ;;
           ret (mkSubType (b2n marker =? 0x4F)%N x ct)) ]
      (with_chain marker (
         ct <- map_err SubT_DecodeCompType decode_comptype ;;
         ret (mkSubType true [] ct))).

  (** src/decode/types/rectype.rs:23-35 *)
  Definition decode_rectype {R} `{Reader R} : M R DecodeRecTypeError RecType :=
    marker <- map_err Rec_Io read_byte ;;
    if (b2n marker =? 0x4E)%N
    then map_err Rec_DecodeSubtypes (decode_list decode_subtype)
    else with_chain marker (
           st <- map_err Rec_DecodeSubtype decode_subtype ;;
           ret [st]).

  (** src/decode/types/limits.rs:23-44 *)
  Definition parse_limits {R} `{Reader R} : M R ParseLimitsError Limits :=
    b <- map_err Lim_ReadFlagByte read_byte ;;
    '(has_max, address_type) <-
      switch (b2n b)
        [ (P1 0x00, ret (false, AT_I32))
        ; (P1 0x01, ret (true, AT_I32))
        ; (P1 0x04, ret (false, AT_I64))
        ; (P1 0x05, ret (true, AT_I64)) ]
        (throw (Lim_UnexpectedFlagByte b)) ;;
    min <- map_err Lim_ReadMinLimit decode_u64 ;;
    max <- (if (has_max : bool)
            then (m <- map_err Lim_ReadMaxLimit decode_u64 ;; ret (Some m))
            else ret None) ;;
    ret (mkLimits address_type min max).

  (** src/decode/types/memtype.rs:10-15 *)
  Definition parse_memtype {R} `{Reader R} : M R DecodeMemoryTypeError MemType :=
    limits <- map_err MemTypeE parse_limits ;; ret (mkMemType limits).

  (** src/decode/types/tabletype.rs:19-23 *)
  Definition decode_tabletype {R} `{Reader R} : M R DecodeTableTypeError TableType :=
    reftype <- map_err TT_DecodeRefType decode_reftype ;;
    limits <- map_err TT_DecodeLimits parse_limits ;;
    ret (mkTableType reftype limits).

  (** src/decode/types/tagtype.rs:26-33 *)
  Definition decode_tagtype {R} `{Reader R} : M R DecodeTagTypeError TagType :=
    b <- map_err Tag_ReadMarkerByte read_byte ;;
    if negb (b2n b =? 0x00)%N then throw (Tag_InvalidMarkerByte b)
    else x <- map_err Tag_DecodeTypeIndex decode_typeidx ;; ret (mkTagType x).

  (** src/decode/types/externtype.rs:43-53 *)
  Definition decode_externtype {R} `{Reader R} : M R DecodeExternTypeError ExternType :=
    marker <- map_err Ext_ReadMarkerByte read_byte ;;
    switch (b2n marker)
      [ (P1 0x00, x <- map_err Ext_DecodeTypeIndex decode_typeidx ;; ret (ET_Func x))
      ; (P1 0x01, x <- map_err Ext_DecodeTableType decode_tabletype ;; ret (ET_Table x))
      ; (P1 0x02, x <- map_err Ext_DecodeMemoryType parse_memtype ;; ret (ET_Mem x))
      ; (P1 0x03, x <- map_err Ext_DecodeGlobalType decode_globaltype ;; ret (ET_Global x))
      ; (P1 0x04, x <- map_err Ext_DecodeTagType decode_tagtype ;; ret (ET_Tag x)) ]
      (throw (Ext_InvalidMarkerByte marker)).
End Types.
