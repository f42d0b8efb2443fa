(** Specification, part 2: types (5.3) *)
From Verif Require Import Model.Ast Spec.Lang.

(** 5.2.5-like indices: all are u32 *)
Definition Bidx : lang N := Bu32.

(** 5.3.1-5.3.2 number and vector types *)
Inductive Bnumtype : lang NumType :=
| Bnum_i32 : Bnumtype Int32 [x7f]
| Bnum_i64 : Bnumtype Int64 [x7e]
| Bnum_f32 : Bnumtype Float32 [x7d]
| Bnum_f64 : Bnumtype Float64 [x7c].
Inductive Bvectype : lang VecType :=
| Bvec_v128 : Bvectype V128 [x7b].

(** 5.3.3 heap types *)
Inductive Babsheaptype : lang AbsHeapType :=
| Babs_exn : Babsheaptype AH_Exn [x69]
| Babs_array : Babsheaptype AH_Array [x6a]
| Babs_struct : Babsheaptype AH_Struct [x6b]
| Babs_i31 : Babsheaptype AH_I31 [x6c]
| Babs_eq : Babsheaptype AH_Eq [x6d]
| Babs_any : Babsheaptype AH_Any [x6e]
| Babs_extern : Babsheaptype AH_Extern [x6f]
| Babs_func : Babsheaptype AH_Func [x70]
| Babs_none : Babsheaptype AH_None [x71]
| Babs_noextern : Babsheaptype AH_NoExtern [x72]
| Babs_nofunc : Babsheaptype AH_NoFunc [x73]
| Babs_noexn : Babsheaptype AH_NoExn [x74].
Inductive Bheaptype : lang HeapType :=
| Bht_abs t bs : Babsheaptype t bs -> Bheaptype (Ht t) bs
| Bht_idx x bs : Bs33 (Z.of_N x) bs -> Bheaptype (HtIdx x) bs.     (* s33, if >= 0 *)

(** 5.3.4 reference types *)
Inductive Breftype : lang RefType :=
| Brt_ref h bs : Bheaptype h bs -> Breftype (mkRefType false h) (x64 :: bs)
| Brt_ref_null h bs : Bheaptype h bs -> Breftype (mkRefType true h) (x63 :: bs)
| Brt_abs t bs : Babsheaptype t bs -> Breftype (mkRefType true (Ht t)) bs.

(** 5.3.5 value types *)
Inductive Bvaltype : lang ValType :=
| Bvt_num t bs : Bnumtype t bs -> Bvaltype (VT_Num t) bs
| Bvt_vec t bs : Bvectype t bs -> Bvaltype (VT_Vec t) bs
| Bvt_ref t bs : Breftype t bs -> Bvaltype (VT_Ref t) bs.

(** 5.3.6-5.3.8 result, composite, sub and recursive types *)
Definition Bresulttype : lang ResultType := Blist Bvaltype.
Inductive Bmut : lang Mut :=
| Bmut_const : Bmut Const [x00]
| Bmut_var : Bmut Var [x01].
Inductive Bpacktype : lang PackType :=
| Bpt_i8 : Bpacktype PT_I8 [x78]
| Bpt_i16 : Bpacktype PT_I16 [x77].
Inductive Bstoragetype : lang StorageType :=
| Bst_val t bs : Bvaltype t bs -> Bstoragetype (ST_Val t) bs
| Bst_pack t bs : Bpacktype t bs -> Bstoragetype (ST_Pack t) bs.
Inductive Bfieldtype : lang FieldType :=
| Bft st m bs1 bs2 : Bstoragetype st bs1 -> Bmut m bs2 -> Bfieldtype (mkFieldType m st) (bs1 ++ bs2).
Inductive Bcomptype : lang CompType :=
| Bct_array ft bs : Bfieldtype ft bs -> Bcomptype (CT_Array ft) (x5e :: bs)
| Bct_struct fts bs : Blist Bfieldtype fts bs -> Bcomptype (CT_Struct fts) (x5f :: bs)
| Bct_func t1 t2 bs1 bs2 : Bresulttype t1 bs1 -> Bresulttype t2 bs2 -> Bcomptype (CT_Func t1 t2) (x60 :: bs1 ++ bs2).
Inductive Bsubtype : lang SubType :=
| Bsub_final xs ct bs1 bs2 : Blist Bidx xs bs1 -> Bcomptype ct bs2 -> Bsubtype (mkSubType true xs ct) (x4f :: bs1 ++ bs2)
| Bsub_open xs ct bs1 bs2 : Blist Bidx xs bs1 -> Bcomptype ct bs2 -> Bsubtype (mkSubType false xs ct) (x50 :: bs1 ++ bs2)
| Bsub_short ct bs : Bcomptype ct bs -> Bsubtype (mkSubType true [] ct) bs.
Inductive Brectype : lang RecType :=
| Brec_group sts bs : Blist Bsubtype sts bs -> Brectype sts (x4e :: bs)
| Brec_short st bs : Bsubtype st bs -> Brectype [st] bs.

(** 5.3.10 limits *)
Inductive Blimits : lang Limits :=
| Blim_32 n bs : Bu64 n bs -> Blimits (mkLimits AT_I32 n None) (x00 :: bs)
| Blim_32max n m bs1 bs2 : Bu64 n bs1 -> Bu64 m bs2 -> Blimits (mkLimits AT_I32 n (Some m)) (x01 :: bs1 ++ bs2)
| Blim_64 n bs : Bu64 n bs -> Blimits (mkLimits AT_I64 n None) (x04 :: bs)
| Blim_64max n m bs1 bs2 : Bu64 n bs1 -> Bu64 m bs2 -> Blimits (mkLimits AT_I64 n (Some m)) (x05 :: bs1 ++ bs2).

(** 5.3.11-5.3.14 tag, global, memory, table and external types *)
Inductive Btagtype : lang TagType :=
| Btt x bs : Bidx x bs -> Btagtype (mkTagType x) (x00 :: bs).
Inductive Bglobaltype : lang GlobalType :=
| Bgt t m bs1 bs2 : Bvaltype t bs1 -> Bmut m bs2 -> Bglobaltype (mkGlobalType m t) (bs1 ++ bs2).
Inductive Bmemtype : lang MemType :=
| Bmt l bs : Blimits l bs -> Bmemtype (mkMemType l) bs.
Inductive Btabletype : lang TableType :=
| Btbt t l bs1 bs2 : Breftype t bs1 -> Blimits l bs2 -> Btabletype (mkTableType t l) (bs1 ++ bs2).
Inductive Bexterntype : lang ExternType :=
| Bet_func x bs : Bidx x bs -> Bexterntype (ET_Func x) (x00 :: bs)
| Bet_table t bs : Btabletype t bs -> Bexterntype (ET_Table t) (x01 :: bs)
| Bet_mem t bs : Bmemtype t bs -> Bexterntype (ET_Mem t) (x02 :: bs)
| Bet_global t bs : Bglobaltype t bs -> Bexterntype (ET_Global t) (x03 :: bs)
| Bet_tag t bs : Btagtype t bs -> Bexterntype (ET_Tag t) (x04 :: bs).
