(** Specification, part 9: the faults of every production - what is reported
    when the input, the bytes [bs] followed by a [stop], does not start with a
    word of the production.  A fault is that of the first field that cannot be
    read, wrapped by the error variant of that field. *)
From Verif Require Import Model.Prelude Model.Io Model.Ast Model.Errors.
From Verif Require Import Spec.Lang Spec.Types Spec.Instr Spec.Module Spec.Streams Spec.Leb.

Definition faulty (E : Type) : Type := list byte -> ending -> E -> Prop.

(** ** Notation *)

(** the I/O error behind a stop that comes too early *)
Definition io (stop : ending) : io_error := match stop with Ends => UnexpectedEof | Fails k => k end.
Definition nothing {E} : faulty E := fun _ _ _ => False.
Definition wrong {E} (e : E) : faulty E := fun _ _ e' => e' = e.
(** the last field *)
Definition at_ {E E'} (f : E -> E') (F : faulty E) : faulty E' :=
  fun bs stop e => exists e', F bs stop e' /\ e = f e'.
(** what comes after a word of [X] *)
Definition after_ {A E} (X : lang A) (K : A -> faulty E) : faulty E :=
  fun bs stop e => exists a pre rest, bs = pre ++ rest /\ X a pre /\ K a rest stop e.
(** a field [X] with faults [F], reported through [f], and what follows *)
Definition field {A E E'} (f : E -> E') (F : faulty E) (X : lang A) (K : A -> faulty E') : faulty E' :=
  fun bs stop e => at_ f F bs stop e \/ after_ X K bs stop e.
(** a byte and what follows *)
Definition byte_ {E} (f : io_error -> E) (K : byte -> faulty E) : faulty E :=
  fun bs stop e => match bs with [] => e = f (io stop) | b :: rest => K b rest stop e end.
(** the same, but the byte also belongs to what follows *)
Definition peek {E} (f : io_error -> E) (K : byte -> faulty E) : faulty E :=
  fun bs stop e => match bs with [] => e = f (io stop) | b :: _ => K b bs stop e end.
(** [n] bytes *)
Definition Fbytes (n : N) : faulty io_error :=
  fun bs stop e => (N.of_nat (length bs) < n)%N /\ e = io stop.

(** ** Integers: at most [k] bytes *)
Inductive Fleb {E} (k : nat) (fits : list byte -> bool) (misfit too_long : E) (f : io_error -> E) : faulty E :=
| Fleb_misfit cs b rest stop : Forall continues cs -> length cs < k -> ~ continues b -> fits (cs ++ [b]) = false ->
    Fleb k fits misfit too_long f (cs ++ b :: rest) stop misfit
| Fleb_long cs rest stop : Forall continues cs -> length cs = k -> Fleb k fits misfit too_long f (cs ++ rest) stop too_long
| Fleb_cut cs stop : Forall continues cs -> length cs < k -> Fleb k fits misfit too_long f cs stop (f (io stop)).
Definition Fu32 : faulty DecodeU32Error := Fleb 5 (fun bs => unsigned_fits 32 (leb_unsigned bs)) U32_TooLarge U32_RepresentationTooLong U32_Io.
Definition Fu64 : faulty DecodeU64Error := Fleb 10 (fun bs => unsigned_fits 64 (leb_unsigned bs)) U64_TooLarge U64_RepresentationTooLong U64_Io.
Definition Fi32 : faulty DecodeI32Error := Fleb 5 (fun bs => signed_fits 32 (leb_signed bs)) I32_TooLarge I32_RepresentationTooLong I32_Io.
Definition Fi64 : faulty DecodeI64Error := Fleb 10 (fun bs => signed_fits 64 (leb_signed bs)) I64_IncorrectSignExtension I64_RepresentationTooLong I64_Io.
Definition Fs33 : faulty DecodeS33Error := Fleb 5 (fun bs => signed_fits 33 (leb_signed bs)) S33_IncorrectSignExtension S33_RepresentationTooLong S33_Io.

(** ** Lists, names *)
Definition Fnth {A E} (X : lang A) (F : faulty E) (n : N) : faulty (DecodeListError E) :=
  fun bs stop e => exists xs w rest e', bs = w ++ rest /\ Bseq X xs w /\ (N.of_nat (length xs) < n)%N /\ F rest stop e' /\
    e = ParseElement (N.of_nat (length xs)) e'.
Definition Flist {A E} (X : lang A) (F : faulty E) : faulty (DecodeListError E) :=
  field DecodeLength Fu32 Bu32 (Fnth X F).
Definition Fbyte_vector : faulty DecodeByteVectorError :=
  field BV_DecodeLength Fu32 Bu32 (fun n => at_ BV_ReadElements (Fbytes n)).
Definition Fname : faulty DecodeNameError :=
  field Name_DecodeByteVector Fbyte_vector (Blist Bbyte) (fun s _ _ e => ~ utf8 s /\ e = Name_Utf8 s).

(** ** Types *)
(** a non-negative s33 *)
Definition Ftypeidx33 {E} (f : DecodeS33Error -> E) (negative : Z -> E) : faulty E :=
  field f Fs33 Bs33 (fun x => if (x <? 0)%Z then wrong (negative x) else nothing).
Definition Fheaptype : faulty DecodeHeapTypeError :=
  peek HT_ReadMarkerByte (fun b =>
    match b with
    | x69 | x6a | x6b | x6c | x6d | x6e | x6f | x70 | x71 | x72 | x73 | x74 => nothing
    | _ => Ftypeidx33 HT_DecodeTypeIndex HT_NegativeTypeIndex
    end).
Definition Freftype : faulty DecodeRefTypeError :=
  byte_ RT_Io (fun b =>
    match b with
    | x63 | x64 => at_ RT_DecodeHeapType Fheaptype
    | x69 | x6a | x6b | x6c | x6d | x6e | x6f | x70 | x71 | x72 | x73 | x74 => nothing
    | _ => wrong (RT_InvalidMarkerByte (AHT_InvalidMarkerByte (InvalidAbsHeapTypeMarker b)))
    end).
Definition Fvaltype : faulty DecodeValTypeError :=
  peek VTE_Io (fun b =>
    match b with
    | x7f | x7e | x7d | x7c | x7b => nothing
    | _ => at_ VTE_DecodeRefType Freftype
    end).
Definition Fresulttype : faulty DecodeResultTypeError := at_ RTE_DecodeList (Flist Bvaltype Fvaltype).
Definition Fmut {E} (f : InvalidMutabilityByteError -> E) (b : byte) : faulty E :=
  match b with x00 | x01 => nothing | _ => wrong (f (InvalidMutabilityByte b)) end.
Definition Fglobaltype : faulty DecodeGlobalTypeError :=
  field GT_DecodeValueType Fvaltype Bvaltype (fun _ => byte_ GT_DecodeMutability (Fmut GT_InvalidMutability)).
Definition Fstoragetype : faulty DecodeStorageTypeError :=
  peek ST_ReadMarkerByte (fun b =>
    match b with
    | x77 | x78 => nothing
    | _ => at_ (ST_DecodeValTypeOrPackType b) Fvaltype
    end).
Definition Ffieldtype : faulty DecodeFieldTypeError :=
  field FT_DecodeStorageType Fstoragetype Bstoragetype (fun _ => byte_ FT_ReadMutabilityMarkerByte (Fmut FT_DecodeMutability)).
Definition Fcomptype : faulty DecodeCompTypeError :=
  byte_ CT_ReadMarkerByte (fun b =>
    match b with
    | x5e => at_ CT_DecodeFieldType Ffieldtype
    | x5f => at_ CT_DecodeStruct (Flist Bfieldtype Ffieldtype)
    | x60 => field CT_DecodeFuncParameters Fresulttype Bresulttype (fun _ => at_ CT_DecodeFuncResults Fresulttype)
    | _ => wrong (CT_InvalidMarkerByte b)
    end).
Definition Fsubtype : faulty DecodeSubTypeError :=
  fun bs => match bs with
    | x4f :: rest | x50 :: rest =>
        field SubT_DecodeSupertypes (Flist Bidx (at_ TypeIdxE Fu32)) (Blist Bidx) (fun _ => at_ SubT_DecodeCompType Fcomptype) rest
    | _ :: _ => at_ SubT_DecodeCompType Fcomptype bs
    | [] => fun stop e => e = SubT_Io (io stop)
    end.
Definition Frectype : faulty DecodeRecTypeError :=
  fun bs => match bs with
    | x4e :: rest => at_ Rec_DecodeSubtypes (Flist Bsubtype Fsubtype) rest
    | _ :: _ => at_ Rec_DecodeSubtype Fsubtype bs
    | [] => fun stop e => e = Rec_Io (io stop)
    end.
Definition Flimits : faulty ParseLimitsError :=
  byte_ Lim_ReadFlagByte (fun b =>
    match b with
    | x00 | x04 => at_ Lim_ReadMinLimit Fu64
    | x01 | x05 => field Lim_ReadMinLimit Fu64 Bu64 (fun _ => at_ Lim_ReadMaxLimit Fu64)
    | _ => wrong (Lim_UnexpectedFlagByte b)
    end).
Definition Fmemtype : faulty DecodeMemoryTypeError := at_ MemTypeE Flimits.
Definition Ftabletype : faulty DecodeTableTypeError :=
  field TT_DecodeRefType Freftype Breftype (fun _ => at_ TT_DecodeLimits Flimits).
Definition Ftagtype : faulty DecodeTagTypeError :=
  byte_ Tag_ReadMarkerByte (fun b =>
    match b with
    | x00 => at_ (fun e => Tag_DecodeTypeIndex (TypeIdxE e)) Fu32
    | _ => wrong (Tag_InvalidMarkerByte b)
    end).
Definition Fexterntype : faulty DecodeExternTypeError :=
  byte_ Ext_ReadMarkerByte (fun b =>
    match b with
    | x00 => at_ (fun e => Ext_DecodeTypeIndex (TypeIdxE e)) Fu32
    | x01 => at_ Ext_DecodeTableType Ftabletype
    | x02 => at_ Ext_DecodeMemoryType Fmemtype
    | x03 => at_ Ext_DecodeGlobalType Fglobaltype
    | x04 => at_ Ext_DecodeTagType Ftagtype
    | _ => wrong (Ext_InvalidMarkerByte b)
    end).

(** ** Immediates *)
Definition Fmemarg : faulty MemargError :=
  field MA_Align Fu32 Bu32 (fun n =>
    if (n <? 2 ^ 6)%N then at_ MA_Offset Fu64
    else if (n <? 2 ^ 7)%N then field (fun e => MA_MemIdx (MemIdxE e)) Fu32 Bidx (fun _ => at_ MA_Offset Fu64)
    else wrong (MA_InvalidFlagsBit n)).
(** A block type that starts like a reference type but goes on wrongly is
    reported as the negative type index -29 or -28, whatever the reason: the
    other alternative is tried on the first byte. *)
Definition Fblocktype : faulty BlockTypeError :=
  peek BT_ReadMarkerByte (fun b =>
    match b with
    | x40 | x7f | x7e | x7d | x7c | x7b
    | x69 | x6a | x6b | x6c | x6d | x6e | x6f | x70 | x71 | x72 | x73 | x74 => nothing
    | x63 => fun bs stop e => (exists e', Fvaltype bs stop e') /\ e = BT_NegativeTypeIndex (-29)%Z
    | x64 => fun bs stop e => (exists e', Fvaltype bs stop e') /\ e = BT_NegativeTypeIndex (-28)%Z
    | _ => Ftypeidx33 BT_DecodeIndex BT_NegativeTypeIndex
    end).
Definition Fcatch : faulty CatchError :=
  byte_ Catch_ReadMarkerByte (fun b =>
    let label := at_ (fun e => Catch_DecodeLabelIdx (LabelIdxE e)) Fu32 in
    match b with
    | x00 | x01 => field (fun e => Catch_DecodeTagIdx (TagIdxE e)) Fu32 Bidx (fun _ => label)
    | x02 | x03 => label
    | _ => wrong (Catch_InvalidMarkerByte b)
    end).
Definition Fbr_on_cast : faulty ParseError :=
  byte_ (fun e => PE_Control (Ctl_ReadCastNullabilityMarker e)) (fun b =>
    match b with
    | x00 | x01 | x02 | x03 =>
        field (fun e => PE_Control (Ctl_LabelIdx (LabelIdxE e))) Fu32 Bidx (fun _ =>
        field (fun e => PE_Control (Ctl_HeapType e)) Fheaptype Bheaptype (fun _ =>
        at_ (fun e => PE_Control (Ctl_HeapType e)) Fheaptype))
    | _ => wrong (PE_Control (Ctl_InvalidCastNullabilityMarker b))
    end).

(** ** Instructions without a body *)
Definition assigned (table : list (N * lang instr)) (n : N) : bool := existsb (N.eqb n) (map fst table).
(** fields that occur more than once *)
Definition e_label e := PE_Control (Ctl_LabelIdx (LabelIdxE e)).
Definition e_func e := PE_Control (Ctl_FuncIdx (FuncIdxE e)).
Definition e_type e := PE_Control (Ctl_TypeIdx (TypeIdxE e)).
Definition e_aggtype e := PE_Aggregate (Agg_TypeIdx (TypeIdxE e)).
Definition e_table e := PE_Table (Tab_TableIdx (TableIdxE e)).
Definition e_elem e := PE_Table (Tab_ElemIdx (ElemIdxE e)).
Definition e_mem e := PE_Memory (Mem_DecodeMemIdx (MemIdxE e)).
Definition e_data e := PE_Memory (Mem_DecodeDataIdx (DataIdxE e)).

Definition Ffb (n : N) : faulty ParseError :=
  match n with
  | 0 | 1 | 6 | 7 | 11 | 12 | 13 | 14 | 16 => at_ e_aggtype Fu32
  | 2 | 3 | 4 | 5 => field e_aggtype Fu32 Bidx (fun _ => at_ (fun e => PE_Aggregate (Agg_FieldIndex e)) Fu32)
  | 8 => field e_aggtype Fu32 Bidx (fun _ => at_ (fun e => PE_Aggregate (Agg_ArrayFixedLength e)) Fu32)
  | 9 | 18 => field e_aggtype Fu32 Bidx (fun _ => at_ (fun e => PE_Aggregate (Agg_DataIdx (DataIdxE e))) Fu32)
  | 10 | 19 => field e_aggtype Fu32 Bidx (fun _ => at_ (fun e => PE_Aggregate (Agg_ElemIdx (ElemIdxE e))) Fu32)
  | 17 => field e_aggtype Fu32 Bidx (fun _ => at_ e_aggtype Fu32)
  | 20 | 21 | 22 | 23 => at_ (fun e => PE_Reference (Ref_HeapType e)) Fheaptype
  | 24 | 25 => Fbr_on_cast
  | _ => if assigned ops_fb n then nothing else wrong (PE_InvalidMarkerByteAfterFB n)
  end%N.
Definition Ffc (n : N) : faulty ParseError :=
  match n with
  | 8 => field e_data Fu32 Bidx (fun _ => at_ e_mem Fu32)
  | 9 => at_ e_data Fu32
  | 10 => field e_mem Fu32 Bidx (fun _ => at_ e_mem Fu32)
  | 11 => at_ e_mem Fu32
  | 12 => field e_elem Fu32 Bidx (fun _ => at_ e_table Fu32)
  | 13 => at_ e_elem Fu32
  | 14 => field e_table Fu32 Bidx (fun _ => at_ e_table Fu32)
  | 15 | 16 | 17 => at_ e_table Fu32
  | _ => if assigned ops_fc n then nothing else wrong (PE_InvalidMarkerByteAfterFC n)
  end%N.
Definition Ffd (n : N) : faulty ParseError :=
  let memarg := fun e => PE_Vector (Vec_Memarg e) in
  let lane := fun e => PE_Vector (Vec_LaneIdx (LaneIdxE e)) in
  (if (n <=? 11) || (n =? 92) || (n =? 93) then at_ memarg Fmemarg
   else if (84 <=? n) && (n <=? 91) then field memarg Fmemarg Bmemarg (fun _ => at_ lane (Fbytes 1))
   else if (n =? 12) || (n =? 13) then at_ (fun e => PE_Vector (Vec_ReadImmediateBytes e)) (Fbytes 16)
   else if (21 <=? n) && (n <=? 34) then at_ lane (Fbytes 1)
   else if assigned ops_fd n then nothing else wrong (PE_Vector (Vec_InvalidOpcode n)))%N%bool.
Definition Fop (b : byte) : faulty ParseError :=
  match b with
  | x08 => at_ (fun e => PE_Control (Ctl_TagIdx (TagIdxE e))) Fu32
  | x0c | x0d | xd5 | xd6 => at_ e_label Fu32
  | x0e => field (fun e => PE_Control (Ctl_DecodeLabelIdxVector e)) (Flist Bidx (at_ LabelIdxE Fu32)) (Blist Bidx) (fun _ => at_ e_label Fu32)
  | x10 | x12 => at_ e_func Fu32
  | x11 | x13 => field e_type Fu32 Bidx (fun _ => at_ (fun e => PE_Control (Ctl_TableIdx (TableIdxE e))) Fu32)
  | x14 | x15 => at_ e_type Fu32
  | x1c => at_ (fun e => PE_Parametric (Par_DecodeList e)) (Flist Bvaltype Fvaltype)
  | x20 | x21 | x22 => at_ (fun e => PE_Variable (Var_LocalIdx (LocalIdxE e))) Fu32
  | x23 | x24 => at_ (fun e => PE_Variable (Var_GlobalIdx (GlobalIdxE e))) Fu32
  | x25 | x26 => at_ e_table Fu32
  | x28 | x29 | x2a | x2b | x2c | x2d | x2e | x2f | x30 | x31 | x32 | x33 | x34 | x35
  | x36 | x37 | x38 | x39 | x3a | x3b | x3c | x3d | x3e => at_ (fun e => PE_Memory (Mem_DecodeMemarg e)) Fmemarg
  | x3f | x40 => at_ e_mem Fu32
  | x41 => at_ (fun e => PE_Numeric (Num_DecodeI32 e)) Fi32
  | x42 => at_ (fun e => PE_Numeric (Num_DecodeI64 e)) Fi64
  | x43 => at_ (fun e => PE_Numeric (Num_DecodeF32 (F32_ReadPayload e))) (Fbytes 4)
  | x44 => at_ (fun e => PE_Numeric (Num_DecodeF64 (F64_ReadPayload e))) (Fbytes 8)
  | xd0 => at_ (fun e => PE_Reference (Ref_HeapType e)) Fheaptype
  | xd2 => at_ (fun e => PE_Reference (Ref_FuncIdx (FuncIdxE e))) Fu32
  | xfb => field (fun e => PE_Reference (Ref_ReadSubOpcode e)) Fu32 Bu32 Ffb
  | xfc => field (fun e => PE_Numeric (Num_ReadOpcode e)) Fu32 Bu32 Ffc
  | xfd => field (fun e => PE_Vector (Vec_ReadOpcode e)) Fu32 Bu32 Ffd
  | _ => if assigned ops (val b) then nothing else wrong (PE_InvalidOpcode b)
  end.

(** ** Instructions with a body, expressions *)

(** What precedes a sequence of instructions inside an instruction; [true] if
    the sequence may be ended by [else]. *)
Inductive opening : bool -> list byte -> Prop :=
| op_block bt w : Bblocktype bt w -> opening false (x02 :: w)
| op_loop bt w : Bblocktype bt w -> opening false (x03 :: w)
| op_if bt w : Bblocktype bt w -> opening true (x04 :: w)
| op_else bt is w1 w2 : Bblocktype bt w1 -> Binstrs is w2 -> opening false (x04 :: w1 ++ w2 ++ [x05])
| op_try bt cs w1 w2 : Bblocktype bt w1 -> Blist Bcatch cs w2 -> opening false (x1f :: w1 ++ w2).
(** The input does not start with an instruction, nor with [end] or [else]. *)
Inductive Finstr : faulty ParseError :=
| Fi_read stop : Finstr [] stop (PE_ReadOpcode (io stop))
| Fi_op b rest stop e : ~ In b [x02; x03; x04; x1f; x05; x0b] -> Fop b rest stop e -> Finstr (b :: rest) stop e
| Fi_blocktype b rest stop e : In b [x02; x03; x04; x1f] -> Fblocktype rest stop e ->
    Finstr (b :: rest) stop (PE_Control (Ctl_BlockType e))
| Fi_catches bt w rest stop e : Bblocktype bt w -> Flist Bcatch Fcatch rest stop e ->
    Finstr (x1f :: w ++ rest) stop (PE_Control (Ctl_DecodeCatchListError e))
| Fi_body o h is w rest stop e : opening o h -> Binstrs is w -> Finstr rest stop e -> Finstr (h ++ w ++ rest) stop e
| Fi_else h is w rest stop : opening false h -> Binstrs is w -> Finstr (h ++ w ++ x05 :: rest) stop (PE_Control Ctl_UnexpectedElse).
Inductive Fexpr : faulty ParseExpressionError :=
| Fexpr_instr is w rest stop e : Binstrs is w -> Finstr rest stop e -> Fexpr (w ++ rest) stop (Expr_ParseInstruction e)
| Fexpr_else is w rest stop : Binstrs is w -> Fexpr (w ++ x05 :: rest) stop Expr_UnexpectedElse.

(** ** Section entries *)
Definition Fimport : faulty DecodeImportError :=
  field Imp_DecodeModuleName Fname Bname (fun _ =>
  field Imp_DecodeItemName Fname Bname (fun _ =>
  at_ Imp_DecodeExternType Fexterntype)).
Definition Ftable : faulty DecodeTableError :=
  fun bs => match bs with
    | [] => fun stop e => e = Tbl_Io (io stop)
    | x40 :: rest =>
        byte_ Tbl_Io (fun b =>
          match b with
          | x00 => field Tbl_DecodeTableType Ftabletype Btabletype (fun _ => at_ Tbl_DecodeExpression Fexpr)
          | _ => wrong (Tbl_UnexpectedMarkerByte b)
          end) rest
    | _ :: _ => at_ Tbl_DecodeTableType Ftabletype bs
    end.
Definition Fglobal : faulty DecodeGlobalError :=
  field Glob_DecodeGlobalType Fglobaltype Bglobaltype (fun _ => at_ Glob_DecodeInit Fexpr).
(** the index is read before the kind is judged *)
Definition Fexport : faulty DecodeExportError :=
  field Exp_DecodeName Fname Bname (fun _ =>
  byte_ Exp_ReadDescriptorMarkerByte (fun b =>
  field Exp_DecodeIndex Fu32 Bu32 (fun _ =>
    match b with
    | x00 | x01 | x02 | x03 | x04 => nothing
    | _ => wrong (Exp_InvalidDescriptorMarkerByte (InvalidExportDescMarker b))
    end))).
Definition Felemkind : faulty DecodeElementKindError :=
  byte_ EK_Io (fun b => match b with x00 => nothing | _ => wrong (EK_InvalidElemKind b) end).
(** the offset of the bitfield-2 form is reported as an element expression *)
Definition Felem : faulty DecodeElementError :=
  let funcs := at_ El_DecodeFuncIdxVector (Flist Bidx (at_ FuncIdxE Fu32)) in
  let exprs := at_ El_DecodeInit (Flist Bexpr Fexpr) in
  let kind_funcs := field El_DecodeElementKind Felemkind Belemkind (fun _ => funcs) in
  let ref_exprs := field El_DecodeReferenceType Freftype Breftype (fun _ => exprs) in
  let table := field (fun e => El_DecodeTableIdx (TableIdxE e)) Fu32 Bidx in
  field El_DecodeBitfield Fu32 Bu32 (fun n =>
    match n with
    | 0 => field El_DecodeOffsetExpression Fexpr Bexpr (fun _ => funcs)
    | 1 | 3 => kind_funcs
    | 2 => table (fun _ => field El_DecodeElementExpression Fexpr Bexpr (fun _ => kind_funcs))
    | 4 => field El_DecodeOffsetExpression Fexpr Bexpr (fun _ => exprs)
    | 5 | 7 => ref_exprs
    | 6 => table (fun _ => field El_DecodeOffsetExpression Fexpr Bexpr (fun _ => ref_exprs))
    | _ => wrong (El_InvalidBitfield n)
    end%N).
Definition Fdata : faulty DecodeDataSegmentError :=
  let init := at_ Dat_DecodeInitVector Fbyte_vector in
  field Dat_DecodeBitfield Fu32 Bu32 (fun n =>
    match n with
    | 0 => field Dat_DecodeOffsetExpr Fexpr Bexpr (fun _ => init)
    | 1 => init
    | 2 => field (fun e => Dat_DecodeMemIdx (MemIdxE e)) Fu32 Bidx (fun _ =>
           field Dat_DecodeOffsetExpr Fexpr Bexpr (fun _ => init))
    | _ => wrong (Dat_InvalidBitfield n)
    end%N).

(** ** Code *)

(** a run of locals after [total] others *)
Definition Flocals (total : N) : faulty DecodeCodeLocalsError :=
  field Loc_DecodeLocalsCount Fu32 Bu32 (fun n =>
    if (total + n <? 2 ^ 32)%N then at_ Loc_DecodeLocalValType Fvaltype
    else wrong (Loc_LocalsCountOutOfBound (2 ^ 32 - 1) (total + n))%N).
Definition count_locals (locs : list (list ValType)) : N := N.of_nat (length (concat locs)).
Definition Flocals_list : faulty (DecodeListError DecodeCodeLocalsError) :=
  field DecodeLength Fu32 Bu32 (fun n bs stop e => exists locs w rest e', bs = w ++ rest /\ Bseq Blocals locs w /\
    (N.of_nat (length locs) < n)%N /\ (count_locals locs < 2 ^ 32)%N /\ Flocals (count_locals locs) rest stop e' /\
    e = ParseElement (N.of_nat (length locs)) e').
Definition Ffunc : faulty DecodeCodeError :=
  field Code_DecodeLocalsVector Flocals_list (fun locs w => Blist Blocals locs w /\ (count_locals locs < 2 ^ 32)%N)
    (fun _ => at_ Code_DecodeFunctionBody Fexpr).
(** What can be read of something of declared size [n]: its declared bytes, or
    as many as there are. *)
Definition fenced (n : N) (rest : list byte) (stop : ending) : list byte * ending :=
  if (n <=? N.of_nat (length rest))%N then (firstn (N.to_nat n) rest, Ends) else (rest, stop).
Definition Fcode : faulty DecodeCodeError :=
  field Code_DecodeFunctionSize Fu32 Bu32 (fun n rest stop e =>
    (let '(bs', stop') := fenced n rest stop in Ffunc bs' stop' e)
    \/ (exists f w rest', rest = w ++ rest' /\ Bfunc f w /\ (N.of_nat (length w) < n)%N /\
          e = Code_EntrySizeMismatch n (n - N.of_nat (length w))%N (N.of_nat (length w)))).

(** ** Section contents *)
Definition Fcontents (k : SectionKind) : faulty DecodeModuleError :=
  match k with
  | SK_Custom => field (fun e => DM_DecodeCustomSection (Cust_DecodeName e)) Fname Bname
      (fun _ _ stop e => exists x, stop = Fails x /\ e = DM_DecodeCustomSection (Cust_Io x))
  | SK_Type => at_ (fun e => DM_DecodeTypeSection (TypeSec_DecodeList e)) (Flist Brectype Frectype)
  | SK_Import => at_ (fun e => DM_DecodeImportSection (ImportSec_DecodeList e)) (Flist Bimport Fimport)
  | SK_Function => at_ (fun e => DM_DecodeFunctionSection (FuncSec_DecodeList e)) (Flist Bidx (at_ TypeIdxE Fu32))
  | SK_Table => at_ (fun e => DM_DecodeTableSection (TableSec_DecodeList e)) (Flist Btable Ftable)
  | SK_Memory => at_ (fun e => DM_DecodeMemorySection (MemSec_DecodeList e)) (Flist Bmemtype Fmemtype)
  | SK_Tag => at_ (fun e => DM_DecodeTagSection (TagSec_DecodeList e)) (Flist Btagtype Ftagtype)
  | SK_Global => at_ (fun e => DM_DecodeGlobalSection (GlobalSec_DecodeList e)) (Flist Bglobal Fglobal)
  | SK_Export => at_ (fun e => DM_DecodeExportSection (ExportSec_DecodeList e)) (Flist Bexport Fexport)
  | SK_Start => at_ (fun e => DM_DecodeStartSection (StartSecE (FuncIdxE e))) Fu32
  | SK_Element => at_ (fun e => DM_DecodeElementSection (ElemSec_DecodeList e)) (Flist Belem Felem)
  | SK_DataCount => at_ (fun e => DM_DecodeDatacountSection (DC_DecodeDataSegmentCount e)) Fu32
  | SK_Code => at_ (fun e => DM_DecodeCodeSection (CodeSec_DecodeList e)) (Flist Bcode Fcode)
  | SK_Data => at_ (fun e => DM_DecodeDataSection (DataSec_DecodeList e)) (Flist Bdata Fdata)
  end.

(** ** What it means to report and to cover faults *)

(** a reader that delivers [bs] one byte at a time and then stops *)
Definition byte_by_byte (bs : list byte) (stop : ending) : list event :=
  map (fun b => EvData b []) bs ++ match stop with Ends => [] | Fails k => [EvErr k] end.
(** The decoder [p] reports exactly the faults [F]. *)
Record reports {E A} (p : Env -> list event -> res E A * list event) (F : faulty E) : Prop := {
  (* whatever the reader and the resources, a reported error is a fault of what was delivered *)
  reports_sound : forall env evs bs stop e evs', content evs = (bs, stop) -> p env evs = (Err e, evs') -> F bs stop e;
  (* given the resources, every fault is reported *)
  reports_complete : forall env bs stop e, stop <> Fails Interrupted -> sufficient env (length bs) -> F bs stop e ->
    exists evs', p env (byte_by_byte bs stop) = (Err e, evs')
}.
(** [F] covers what [G] does not: every input starts with a word of [G] or has
    a fault, never both, and only one fault. *)
Record covers {E A} (G : lang A) (F : faulty E) : Prop := {
  covers_all : forall bs stop, stop <> Fails Interrupted -> (exists a pre rest, bs = pre ++ rest /\ G a pre) \/ exists e, F bs stop e;
  covers_excl : forall a pre rest stop e, stop <> Fails Interrupted -> G a pre -> ~ F (pre ++ rest) stop e;
  covers_one : forall bs stop e1 e2, stop <> Fails Interrupted -> F bs stop e1 -> F bs stop e2 -> e1 = e2
}.
