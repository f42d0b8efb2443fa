(** Specification: which errors are about the contents of a section, and about
    which of its entries. *)
From Verif Require Import Model.Prelude Model.Io Model.Ast Model.Errors.
From Verif Require Import Spec.Lang Spec.Types Spec.Instr Spec.Module Spec.Faults Spec.Diagnosis Spec.Elements.

(** the kind of the section whose contents the error is about, if it is about
    the contents of one section *)
Definition about (e : DecodeModuleError) : option SectionKind :=
  match e with
  | DM_DecodeCustomSection _ => Some SK_Custom | DM_DecodeTypeSection _ => Some SK_Type
  | DM_DecodeImportSection _ => Some SK_Import | DM_DecodeFunctionSection _ => Some SK_Function
  | DM_DecodeTableSection _ => Some SK_Table | DM_DecodeMemorySection _ => Some SK_Memory
  | DM_DecodeTagSection _ => Some SK_Tag | DM_DecodeGlobalSection _ => Some SK_Global
  | DM_DecodeExportSection _ => Some SK_Export | DM_DecodeStartSection _ => Some SK_Start
  | DM_DecodeElementSection _ => Some SK_Element | DM_DecodeDatacountSection _ => Some SK_DataCount
  | DM_DecodeCodeSection _ => Some SK_Code | DM_DecodeDataSection _ => Some SK_Data
  | _ => None
  end.

(** the position of the entry it is about *)
Definition position_in {E} (e : DecodeListError E) : option N :=
  match e with ParseElement i _ => Some i | DecodeLength _ => None end.
Definition position (e : DecodeModuleError) : option N :=
  match e with
  | DM_DecodeTypeSection (TypeSec_DecodeList l) => position_in l
  | DM_DecodeImportSection (ImportSec_DecodeList l) => position_in l
  | DM_DecodeFunctionSection (FuncSec_DecodeList l) => position_in l
  | DM_DecodeTableSection (TableSec_DecodeList l) => position_in l
  | DM_DecodeMemorySection (MemSec_DecodeList l) => position_in l
  | DM_DecodeTagSection (TagSec_DecodeList l) => position_in l
  | DM_DecodeGlobalSection (GlobalSec_DecodeList l) => position_in l
  | DM_DecodeExportSection (ExportSec_DecodeList l) => position_in l
  | DM_DecodeElementSection (ElemSec_DecodeList l) => position_in l
  | DM_DecodeCodeSection (CodeSec_DecodeList l) => position_in l
  | DM_DecodeDataSection (DataSec_DecodeList l) => position_in l
  | _ => None
  end.
(** the same error, about the entry at position [i] *)
Definition moved_in {E} (i : N) (e : DecodeListError E) : DecodeListError E :=
  match e with ParseElement _ x => ParseElement i x | DecodeLength x => DecodeLength x end.
Definition moved (i : N) (e : DecodeModuleError) : DecodeModuleError :=
  match e with
  | DM_DecodeTypeSection (TypeSec_DecodeList l) => DM_DecodeTypeSection (TypeSec_DecodeList (moved_in i l))
  | DM_DecodeImportSection (ImportSec_DecodeList l) => DM_DecodeImportSection (ImportSec_DecodeList (moved_in i l))
  | DM_DecodeFunctionSection (FuncSec_DecodeList l) => DM_DecodeFunctionSection (FuncSec_DecodeList (moved_in i l))
  | DM_DecodeTableSection (TableSec_DecodeList l) => DM_DecodeTableSection (TableSec_DecodeList (moved_in i l))
  | DM_DecodeMemorySection (MemSec_DecodeList l) => DM_DecodeMemorySection (MemSec_DecodeList (moved_in i l))
  | DM_DecodeTagSection (TagSec_DecodeList l) => DM_DecodeTagSection (TagSec_DecodeList (moved_in i l))
  | DM_DecodeGlobalSection (GlobalSec_DecodeList l) => DM_DecodeGlobalSection (GlobalSec_DecodeList (moved_in i l))
  | DM_DecodeExportSection (ExportSec_DecodeList l) => DM_DecodeExportSection (ExportSec_DecodeList (moved_in i l))
  | DM_DecodeElementSection (ElemSec_DecodeList l) => DM_DecodeElementSection (ElemSec_DecodeList (moved_in i l))
  | DM_DecodeCodeSection (CodeSec_DecodeList l) => DM_DecodeCodeSection (CodeSec_DecodeList (moved_in i l))
  | DM_DecodeDataSection (DataSec_DecodeList l) => DM_DecodeDataSection (DataSec_DecodeList (moved_in i l))
  | e => e
  end.

(** well-formed entries of a section of kind [k] *)
Definition entries (k : SectionKind) (items : list (list byte)) : Prop :=
  Forall (fun b => exists en, Bentry k en b) items.

(** [opens k w]: [w] is well-formed sections which may begin a module, and a
    section of kind [k] may come next. *)
Definition opens (k : SectionKind) (w : list byte) : Prop :=
  exists xs : list (section * N), Bseq Bsection xs w /\ beginning (map fst xs) /\ forall e, ~ misplaced (map fst xs) k e.
