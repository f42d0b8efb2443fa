(** How many lines the Debug text of an error takes: a constant number, and one
    for each byte of a name. *)
From Verif Require Import Model.Prelude Model.Io Model.Ast Model.Errors Model.Display Model.Debug Model.DebugError.
From Verif Require Import Spec.Lang Spec.Types Spec.Module Spec.Streams Spec.Layout Spec.Faults Spec.Diagnosis Spec.Debug Spec.Utf8 Spec.Outline Spec.Length.
From Verif Require Import Proofs.Sizes Proofs.Pretty Proofs.Debug Proofs.Outline Proofs.DebugError Proofs.Utf8Module Proofs.Length.
From Coq Require Import Lia String.
Local Open Scope string_scope.
Local Open Scope nat_scope.

(** ** lines *)
Create HintDb rows.
Section Errors.
  Context {T : Texts} (h : nat) (Hh : 1 <= h) (Hio : forall e, tall (debug_io e) <= h) (Hutf8 : forall bs, tall (debug_utf8_error bs) <= h).
  #[local] Hint Resolve Hio Hutf8 : rows.
  Lemma er_bytes l : tall (d_bytes l) <= 2 + List.length l.
  Proof. unfold d_bytes. pose proof (tall_list d_byte l). pose proof (items_const d_byte 1 l (fun _ => le_n 1)). lia. Qed.
  Lemma er_list {E} n (d : E -> dtree) c : 1 <= c -> (forall u, tall (d_DecodeU32Error u) <= 2 + h) -> (forall e, tall (d e) <= c + h) -> forall e, tall (d_list_error n d e) <= 3 + (c + h).
  Proof.
    intros Hc Hu H [u|p s]; cbn [d_list_error].
    - specialize (Hu u). remember (d_DecodeU32Error u) as b. cbn [tall fold_right]. lia.
    - specialize (H s). cbn [tall fold_right snd d_N]. lia.
  Qed.
  Ltac lists := match goal with |- forall e, tall (d_list_error _ _ e) <= _ => idtac end.
  Tactic Notation "er" reference(f) :=
    let e := fresh "e" in intros e; unfold f; destruct e; cbn [tall fold_right snd fst d_byte d_N d_Z d_kind d_bool d_try_from_int_error];
    repeat match goal with
    | |- context [tall (d_list_error ?n ?d ?t)] => let K := fresh "K" in eassert (K : tall (d_list_error n d t) <= _) by (eapply er_list; [|solve [eauto with rows nocore]|solve [eauto with rows nocore]]; lia); let w := fresh "w" in generalize dependent (tall (d_list_error n d t)); intros w K
    | |- context [tall ?t] => let K := fresh "K" in eassert (K : tall t <= _) by (eauto with rows nocore); let n := fresh "n" in generalize dependent (tall t); intros n K
    end; lia.

  Lemma er_DecodeU32Error : forall e, tall (d_DecodeU32Error e) <= 2 + h. Proof. er d_DecodeU32Error. Qed.
  #[local] Hint Resolve er_DecodeU32Error : rows.

  Lemma er_DecodeU64Error : forall e, tall (d_DecodeU64Error e) <= 2 + h. Proof. er d_DecodeU64Error. Qed.
  #[local] Hint Resolve er_DecodeU64Error : rows.

  Lemma er_DecodeI32Error : forall e, tall (d_DecodeI32Error e) <= 2 + h. Proof. er d_DecodeI32Error. Qed.
  #[local] Hint Resolve er_DecodeI32Error : rows.

  Lemma er_DecodeI64Error : forall e, tall (d_DecodeI64Error e) <= 2 + h. Proof. er d_DecodeI64Error. Qed.
  #[local] Hint Resolve er_DecodeI64Error : rows.

  Lemma er_DecodeS33Error : forall e, tall (d_DecodeS33Error e) <= 2 + h. Proof. er d_DecodeS33Error. Qed.
  #[local] Hint Resolve er_DecodeS33Error : rows.

  Lemma er_DecodeTypeIdxError : forall e, tall (d_DecodeTypeIdxError e) <= 4 + h. Proof. er d_DecodeTypeIdxError. Qed.
  #[local] Hint Resolve er_DecodeTypeIdxError : rows.

  Lemma er_DecodeFuncIdxError : forall e, tall (d_DecodeFuncIdxError e) <= 4 + h. Proof. er d_DecodeFuncIdxError. Qed.
  #[local] Hint Resolve er_DecodeFuncIdxError : rows.

  Lemma er_DecodeTableIdxError : forall e, tall (d_DecodeTableIdxError e) <= 4 + h. Proof. er d_DecodeTableIdxError. Qed.
  #[local] Hint Resolve er_DecodeTableIdxError : rows.

  Lemma er_DecodeMemIdxError : forall e, tall (d_DecodeMemIdxError e) <= 4 + h. Proof. er d_DecodeMemIdxError. Qed.
  #[local] Hint Resolve er_DecodeMemIdxError : rows.

  Lemma er_DecodeGlobalIdxError : forall e, tall (d_DecodeGlobalIdxError e) <= 4 + h. Proof. er d_DecodeGlobalIdxError. Qed.
  #[local] Hint Resolve er_DecodeGlobalIdxError : rows.

  Lemma er_DecodeElemIdxError : forall e, tall (d_DecodeElemIdxError e) <= 4 + h. Proof. er d_DecodeElemIdxError. Qed.
  #[local] Hint Resolve er_DecodeElemIdxError : rows.

  Lemma er_DecodeDataIdxError : forall e, tall (d_DecodeDataIdxError e) <= 4 + h. Proof. er d_DecodeDataIdxError. Qed.
  #[local] Hint Resolve er_DecodeDataIdxError : rows.

  Lemma er_DecodeLocalIdxError : forall e, tall (d_DecodeLocalIdxError e) <= 4 + h. Proof. er d_DecodeLocalIdxError. Qed.
  #[local] Hint Resolve er_DecodeLocalIdxError : rows.

  Lemma er_DecodeLabelIdxError : forall e, tall (d_DecodeLabelIdxError e) <= 4 + h. Proof. er d_DecodeLabelIdxError. Qed.
  #[local] Hint Resolve er_DecodeLabelIdxError : rows.

  Lemma er_DecodeTagIdxError : forall e, tall (d_DecodeTagIdxError e) <= 4 + h. Proof. er d_DecodeTagIdxError. Qed.
  #[local] Hint Resolve er_DecodeTagIdxError : rows.

  Lemma er_DecodeFloat32Error : forall e, tall (d_DecodeFloat32Error e) <= 2 + h. Proof. er d_DecodeFloat32Error. Qed.
  #[local] Hint Resolve er_DecodeFloat32Error : rows.

  Lemma er_DecodeFloat64Error : forall e, tall (d_DecodeFloat64Error e) <= 2 + h. Proof. er d_DecodeFloat64Error. Qed.
  #[local] Hint Resolve er_DecodeFloat64Error : rows.

  Lemma er_DecodeByteVectorError : forall e, tall (d_DecodeByteVectorError e) <= 4 + h. Proof. er d_DecodeByteVectorError. Qed.
  #[local] Hint Resolve er_DecodeByteVectorError : rows.

  Lemma er_InvalidAbsHeapTypeMarkerError : forall e, tall (d_InvalidAbsHeapTypeMarkerError e) <= 3 + h. Proof. er d_InvalidAbsHeapTypeMarkerError. Qed.
  #[local] Hint Resolve er_InvalidAbsHeapTypeMarkerError : rows.

  Lemma er_DecodeAbsHeapTypeError : forall e, tall (d_DecodeAbsHeapTypeError e) <= 5 + h. Proof. er d_DecodeAbsHeapTypeError. Qed.
  #[local] Hint Resolve er_DecodeAbsHeapTypeError : rows.

  Lemma er_DecodeHeapTypeError : forall e, tall (d_DecodeHeapTypeError e) <= 4 + h. Proof. er d_DecodeHeapTypeError. Qed.
  #[local] Hint Resolve er_DecodeHeapTypeError : rows.

  Lemma er_DecodeRefTypeError : forall e, tall (d_DecodeRefTypeError e) <= 7 + h. Proof. er d_DecodeRefTypeError. Qed.
  #[local] Hint Resolve er_DecodeRefTypeError : rows.

  Lemma er_DecodeValTypeError : forall e, tall (d_DecodeValTypeError e) <= 9 + h. Proof. er d_DecodeValTypeError. Qed.
  #[local] Hint Resolve er_DecodeValTypeError : rows.

  Lemma er_DecodeResultTypeError : forall e, tall (d_DecodeResultTypeError e) <= 14 + h. Proof. er d_DecodeResultTypeError. Qed.
  #[local] Hint Resolve er_DecodeResultTypeError : rows.

  Lemma er_InvalidMutabilityByteError : forall e, tall (d_InvalidMutabilityByteError e) <= 3 + h. Proof. er d_InvalidMutabilityByteError. Qed.
  #[local] Hint Resolve er_InvalidMutabilityByteError : rows.

  Lemma er_DecodeGlobalTypeError : forall e, tall (d_DecodeGlobalTypeError e) <= 11 + h. Proof. er d_DecodeGlobalTypeError. Qed.
  #[local] Hint Resolve er_DecodeGlobalTypeError : rows.

  Lemma er_DecodeStorageTypeError : forall e, tall (d_DecodeStorageTypeError e) <= 12 + h. Proof. er d_DecodeStorageTypeError. Qed.
  #[local] Hint Resolve er_DecodeStorageTypeError : rows.

  Lemma er_DecodeFieldTypeError : forall e, tall (d_DecodeFieldTypeError e) <= 14 + h. Proof. er d_DecodeFieldTypeError. Qed.
  #[local] Hint Resolve er_DecodeFieldTypeError : rows.

  Lemma er_DecodeCompTypeError : forall e, tall (d_DecodeCompTypeError e) <= 19 + h. Proof. er d_DecodeCompTypeError. Qed.
  #[local] Hint Resolve er_DecodeCompTypeError : rows.

  Lemma er_InvalidPackTypeMarkerError : forall e, tall (d_InvalidPackTypeMarkerError e) <= 3 + h. Proof. er d_InvalidPackTypeMarkerError. Qed.
  #[local] Hint Resolve er_InvalidPackTypeMarkerError : rows.

  Lemma er_DecodeSubTypeError : forall e, tall (d_DecodeSubTypeError e) <= 21 + h. Proof. er d_DecodeSubTypeError. Qed.
  #[local] Hint Resolve er_DecodeSubTypeError : rows.

  Lemma er_DecodeRecTypeError : forall e, tall (d_DecodeRecTypeError e) <= 26 + h. Proof. er d_DecodeRecTypeError. Qed.
  #[local] Hint Resolve er_DecodeRecTypeError : rows.

  Lemma er_ParseLimitsError : forall e, tall (d_ParseLimitsError e) <= 4 + h. Proof. er d_ParseLimitsError. Qed.
  #[local] Hint Resolve er_ParseLimitsError : rows.

  Lemma er_DecodeMemoryTypeError : forall e, tall (d_DecodeMemoryTypeError e) <= 6 + h. Proof. er d_DecodeMemoryTypeError. Qed.
  #[local] Hint Resolve er_DecodeMemoryTypeError : rows.

  Lemma er_DecodeTableTypeError : forall e, tall (d_DecodeTableTypeError e) <= 9 + h. Proof. er d_DecodeTableTypeError. Qed.
  #[local] Hint Resolve er_DecodeTableTypeError : rows.

  Lemma er_DecodeTagTypeError : forall e, tall (d_DecodeTagTypeError e) <= 6 + h. Proof. er d_DecodeTagTypeError. Qed.
  #[local] Hint Resolve er_DecodeTagTypeError : rows.

  Lemma er_DecodeExternTypeError : forall e, tall (d_DecodeExternTypeError e) <= 13 + h. Proof. er d_DecodeExternTypeError. Qed.
  #[local] Hint Resolve er_DecodeExternTypeError : rows.

  Lemma er_MemargError : forall e, tall (d_MemargError e) <= 6 + h. Proof. er d_MemargError. Qed.
  #[local] Hint Resolve er_MemargError : rows.

  Lemma er_LaneIdxError : forall e, tall (d_LaneIdxError e) <= 2 + h. Proof. er d_LaneIdxError. Qed.
  #[local] Hint Resolve er_LaneIdxError : rows.

  Lemma er_BlockTypeError : forall e, tall (d_BlockTypeError e) <= 4 + h. Proof. er d_BlockTypeError. Qed.
  #[local] Hint Resolve er_BlockTypeError : rows.

  Lemma er_CatchError : forall e, tall (d_CatchError e) <= 6 + h. Proof. er d_CatchError. Qed.
  #[local] Hint Resolve er_CatchError : rows.

  Lemma er_ControlError : forall e, tall (d_ControlError e) <= 11 + h. Proof. er d_ControlError. Qed.
  #[local] Hint Resolve er_ControlError : rows.

  Lemma er_ReferenceError : forall e, tall (d_ReferenceError e) <= 6 + h. Proof. er d_ReferenceError. Qed.
  #[local] Hint Resolve er_ReferenceError : rows.

  Lemma er_AggregateError : forall e, tall (d_AggregateError e) <= 6 + h. Proof. er d_AggregateError. Qed.
  #[local] Hint Resolve er_AggregateError : rows.

  Lemma er_ParametricError : forall e, tall (d_ParametricError e) <= 14 + h. Proof. er d_ParametricError. Qed.
  #[local] Hint Resolve er_ParametricError : rows.

  Lemma er_VariableError : forall e, tall (d_VariableError e) <= 6 + h. Proof. er d_VariableError. Qed.
  #[local] Hint Resolve er_VariableError : rows.

  Lemma er_TableError : forall e, tall (d_TableError e) <= 6 + h. Proof. er d_TableError. Qed.
  #[local] Hint Resolve er_TableError : rows.

  Lemma er_MemoryError : forall e, tall (d_MemoryError e) <= 8 + h. Proof. er d_MemoryError. Qed.
  #[local] Hint Resolve er_MemoryError : rows.

  Lemma er_NumericError : forall e, tall (d_NumericError e) <= 4 + h. Proof. er d_NumericError. Qed.
  #[local] Hint Resolve er_NumericError : rows.

  Lemma er_VectorError : forall e, tall (d_VectorError e) <= 8 + h. Proof. er d_VectorError. Qed.
  #[local] Hint Resolve er_VectorError : rows.

  Lemma er_ParseError : forall e, tall (d_ParseError e) <= 16 + h. Proof. er d_ParseError. Qed.
  #[local] Hint Resolve er_ParseError : rows.

  Lemma er_ParseExpressionError : forall e, tall (d_ParseExpressionError e) <= 18 + h. Proof. er d_ParseExpressionError. Qed.
  #[local] Hint Resolve er_ParseExpressionError : rows.

  Lemma er_DecodeTypeSectionError : forall e, tall (d_DecodeTypeSectionError e) <= 31 + h. Proof. er d_DecodeTypeSectionError. Qed.
  #[local] Hint Resolve er_DecodeTypeSectionError : rows.

  Lemma er_DecodeFunctionSectionError : forall e, tall (d_DecodeFunctionSectionError e) <= 9 + h. Proof. er d_DecodeFunctionSectionError. Qed.
  #[local] Hint Resolve er_DecodeFunctionSectionError : rows.

  Lemma er_DecodeTableError : forall e, tall (d_DecodeTableError e) <= 20 + h. Proof. er d_DecodeTableError. Qed.
  #[local] Hint Resolve er_DecodeTableError : rows.

  Lemma er_DecodeTableSectionError : forall e, tall (d_DecodeTableSectionError e) <= 25 + h. Proof. er d_DecodeTableSectionError. Qed.
  #[local] Hint Resolve er_DecodeTableSectionError : rows.

  Lemma er_DecodeMemorySectionError : forall e, tall (d_DecodeMemorySectionError e) <= 11 + h. Proof. er d_DecodeMemorySectionError. Qed.
  #[local] Hint Resolve er_DecodeMemorySectionError : rows.

  Lemma er_DecodeTagSectionError : forall e, tall (d_DecodeTagSectionError e) <= 11 + h. Proof. er d_DecodeTagSectionError. Qed.
  #[local] Hint Resolve er_DecodeTagSectionError : rows.

  Lemma er_DecodeGlobalError : forall e, tall (d_DecodeGlobalError e) <= 20 + h. Proof. er d_DecodeGlobalError. Qed.
  #[local] Hint Resolve er_DecodeGlobalError : rows.

  Lemma er_DecodeGlobalSectionError : forall e, tall (d_DecodeGlobalSectionError e) <= 25 + h. Proof. er d_DecodeGlobalSectionError. Qed.
  #[local] Hint Resolve er_DecodeGlobalSectionError : rows.

  Lemma er_InvalidExportDescMarkerByte : forall e, tall (d_InvalidExportDescMarkerByte e) <= 3 + h. Proof. er d_InvalidExportDescMarkerByte. Qed.
  #[local] Hint Resolve er_InvalidExportDescMarkerByte : rows.

  Lemma er_DecodeStartSectionError : forall e, tall (d_DecodeStartSectionError e) <= 6 + h. Proof. er d_DecodeStartSectionError. Qed.
  #[local] Hint Resolve er_DecodeStartSectionError : rows.

  Lemma er_DecodeElementKindError : forall e, tall (d_DecodeElementKindError e) <= 3 + h. Proof. er d_DecodeElementKindError. Qed.
  #[local] Hint Resolve er_DecodeElementKindError : rows.

  Lemma er_DecodeElementError : forall e, tall (d_DecodeElementError e) <= 23 + h. Proof. er d_DecodeElementError. Qed.
  #[local] Hint Resolve er_DecodeElementError : rows.

  Lemma er_DecodeElementSectionError : forall e, tall (d_DecodeElementSectionError e) <= 28 + h. Proof. er d_DecodeElementSectionError. Qed.
  #[local] Hint Resolve er_DecodeElementSectionError : rows.

  Lemma er_DecodeDataCountSectionError : forall e, tall (d_DecodeDataCountSectionError e) <= 4 + h. Proof. er d_DecodeDataCountSectionError. Qed.
  #[local] Hint Resolve er_DecodeDataCountSectionError : rows.

  Lemma er_DecodeCodeLocalsError : forall e, tall (d_DecodeCodeLocalsError e) <= 11 + h. Proof. er d_DecodeCodeLocalsError. Qed.
  #[local] Hint Resolve er_DecodeCodeLocalsError : rows.

  Lemma er_DecodeCodeError : forall e, tall (d_DecodeCodeError e) <= 20 + h. Proof. er d_DecodeCodeError. Qed.
  #[local] Hint Resolve er_DecodeCodeError : rows.

  Lemma er_DecodeCodeSectionError : forall e, tall (d_DecodeCodeSectionError e) <= 25 + h. Proof. er d_DecodeCodeSectionError. Qed.
  #[local] Hint Resolve er_DecodeCodeSectionError : rows.

  Lemma er_DecodeDataSegmentError : forall e, tall (d_DecodeDataSegmentError e) <= 20 + h. Proof. er d_DecodeDataSegmentError. Qed.
  #[local] Hint Resolve er_DecodeDataSegmentError : rows.

  Lemma er_DecodeDataSectionError : forall e, tall (d_DecodeDataSectionError e) <= 25 + h. Proof. er d_DecodeDataSectionError. Qed.
  #[local] Hint Resolve er_DecodeDataSectionError : rows.

  Lemma er_InvalidSectionIdError : forall e, tall (d_InvalidSectionIdError e) <= 3 + h. Proof. er d_InvalidSectionIdError. Qed.
  #[local] Hint Resolve er_InvalidSectionIdError : rows.

  Lemma er_DecodeSectionHeaderError : forall e, tall (d_DecodeSectionHeaderError e) <= 5 + h. Proof. er d_DecodeSectionHeaderError. Qed.
  #[local] Hint Resolve er_DecodeSectionHeaderError : rows.


  (** names, at most [n] bytes long *)
  Context (n : nat).
  Definition brief (x : node) : Prop := forall bytes, carries x bytes -> List.length bytes <= n.
  Lemma er_Name e : brief (n_name e) -> tall (d_DecodeNameError e) <= 6 + h + n.
  Proof.
    destruct e as [e|b]; intros H; cbn [d_DecodeNameError].
    - pose proof (er_DecodeByteVectorError e). remember (d_DecodeByteVectorError e) as x. cbn [tall fold_right]. lia.
    - specialize (H b eq_refl). unfold d_from_utf8_error. pose proof (er_bytes b). pose proof (Hutf8 b). remember (d_bytes b) as x. remember (debug_utf8_error b) as y. cbn [tall fold_right snd]. lia.
  Qed.
  Lemma er_Custom e : brief (n_custom_section e) -> tall (d_DecodeCustomSectionError e) <= 8 + h + n.
  Proof.
    destruct e as [e|e]; intros H; cbn [d_DecodeCustomSectionError].
    all: first [pose proof (Hio e); remember (debug_io e) as x|pose proof (er_Name e H); remember (d_DecodeNameError e) as x]; cbn [tall fold_right]; lia.
  Qed.
  Lemma er_Import e : brief (n_import e) -> tall (d_DecodeImportError e) <= 15 + h + n.
  Proof.
    destruct e as [e|e|e]; intros H; cbn [d_DecodeImportError].
    all: first [pose proof (er_Name e H); remember (d_DecodeNameError e) as x|pose proof (er_DecodeExternTypeError e); remember (d_DecodeExternTypeError e) as x]; cbn [tall fold_right]; lia.
  Qed.
  Lemma er_Export e : brief (n_export e) -> tall (d_DecodeExportError e) <= 8 + h + n.
  Proof.
    destruct e as [e|e|e|e]; intros H; cbn [d_DecodeExportError].
    all: first [pose proof (er_Name e H); remember (d_DecodeNameError e) as x|pose proof (er_DecodeU32Error e); remember (d_DecodeU32Error e) as x|pose proof (er_InvalidExportDescMarkerByte e); remember (d_InvalidExportDescMarkerByte e) as x|pose proof (Hio e); remember (debug_io e) as x]; cbn [tall fold_right]; lia.
  Qed.
  Lemma er_names {E} nm (d : E -> dtree) f c e : 1 <= c -> (forall e, brief (f e) -> tall (d e) <= c + h + n) -> brief (n_list f e) -> tall (d_list_error nm d e) <= 3 + (c + h + n).
  Proof.
    intros Hc Hd H. destruct e as [u|p s]; cbn [d_list_error].
    - pose proof (er_DecodeU32Error u). remember (d_DecodeU32Error u) as b. cbn [tall fold_right]. lia.
    - specialize (Hd s H). cbn [tall fold_right snd d_N]. lia.
  Qed.
  Lemma er_ImportSection e : brief (n_import_section e) -> tall (d_DecodeImportSectionError e) <= 20 + h + n.
  Proof. destruct e as [e]. intros H. cbn [d_DecodeImportSectionError]. pose proof (er_names "DecodeImportError" d_DecodeImportError n_import 15 e ltac:(lia) er_Import H). remember (d_list_error _ _ e) as x. cbn [tall fold_right]. lia. Qed.
  Lemma er_ExportSection e : brief (n_export_section e) -> tall (d_DecodeExportSectionError e) <= 13 + h + n.
  Proof. destruct e as [e]. intros H. cbn [d_DecodeExportSectionError]. pose proof (er_names "DecodeExportError" d_DecodeExportError n_export 8 e ltac:(lia) er_Export H). remember (d_list_error _ _ e) as x. cbn [tall fold_right]. lia. Qed.
  Lemma er_Preamble e : (forall b, e = Pre_Unexpected b -> List.length b <= 8) -> tall (d_ParsePreambleError e) <= 12 + h.
  Proof.
    destruct e as [e|b]; intros H; cbn [d_ParsePreambleError].
    - pose proof (Hio e). remember (debug_io e) as x. cbn [tall fold_right]. lia.
    - specialize (H b eq_refl). pose proof (er_bytes b). remember (d_bytes b) as x. cbn [tall fold_right]. lia.
  Qed.
  Lemma er_Module e : brief (n_module e) -> (forall b, e = DM_ParsePreamble (Pre_Unexpected b) -> List.length b <= 8) -> tall (d_DecodeModuleError e) <= 33 + h + n.
  Proof.
    intros H HP. destruct e eqn:E; cbn [d_DecodeModuleError].
    all: try solve [cbn [tall fold_right snd d_N d_kind d_try_from_int_error]; lia].
    all: first
      [ pose proof (er_Custom _ H) as K|pose proof (er_ImportSection _ H) as K|pose proof (er_ExportSection _ H) as K
      | match goal with |- context [d_ParsePreambleError ?x] => assert (K : tall (d_ParsePreambleError x) <= 12 + h) by (apply er_Preamble; intros b ->; apply HP; reflexivity) end
      | match goal with |- context [tall (DTuple _ [?t])] => eassert (K : tall t <= _) by (eauto with rows nocore) end ];
      match type of K with tall ?t <= _ => remember t as x end; cbn [tall fold_right]; lia.
  Qed.
End Errors.

(** ** faults *)
Definition Short {E} (F : faulty E) (f : E -> node) : Prop := forall bs stop e, F bs stop e -> brief (List.length bs) (f e).
Lemma brief_le a b x : a <= b -> brief a x -> brief b x.
Proof. intros Hab H bytes Hc. specialize (H bytes Hc). lia. Qed.
Lemma brief_none a x : N0 x -> brief a x.
Proof. intros H bytes Hc. destruct (H bytes Hc). Qed.
Lemma sh_at {E E'} (f : E -> E') F n : Short F (fun x => n (f x)) -> Short (at_ f F) n.
Proof. intros K bs stop e (e' & HF & ->). exact (K bs stop e' HF). Qed.
Lemma sh_field {A E E'} (f : E -> E') F (X : lang A) K n : Short F (fun x => n (f x)) -> (forall a, Short (K a) n) -> Short (field f F X K) n.
Proof.
  intros K1 K2 bs stop e [HF|(a & pre & rest & -> & _ & HF)]; [exact (sh_at f F n K1 bs stop e HF)|].
  apply (brief_le (List.length rest)); [rewrite app_length; lia|]. exact (K2 a rest stop e HF).
Qed.
Lemma sh_name : Short Fname n_name.
Proof.
  intros bs stop e [HF|(a & pre & rest & -> & HX & [Hs ->])].
  - destruct HF as (e' & _ & ->). apply brief_none. exact (nn_byte_vector e').
  - intros bytes Hc. cbn in Hc. subst bytes. apply len_list in HX; [|apply one_byte]. rewrite app_length. lia.
Qed.
Lemma sh_list {A E} (X : lang A) (F : faulty E) n : Short F n -> Short (Flist X F) (n_list n).
Proof.
  intros K. apply sh_field; [intros bs stop e _; apply brief_none; exact (nn_u32 e)|].
  intros a bs stop e (xs & w & rest & e' & -> & _ & _ & HF & ->). apply (brief_le (List.length rest)); [rewrite app_length; lia|]. exact (K rest stop e' HF).
Qed.
Lemma sh_import : Short Fimport n_import.
Proof.
  unfold Fimport. apply sh_field; [exact sh_name|]. intros _. apply sh_field; [exact sh_name|]. intros _. apply sh_at.
  intros bs stop e _. apply brief_none. exact (nn_externtype e).
Qed.
Lemma sh_export : Short Fexport n_export.
Proof.
  unfold Fexport. apply sh_field; [exact sh_name|]. intros _ bs stop e HF. apply brief_none.
  assert (Hn : forall e', e <> Exp_DecodeName e').
  { intros e' ->. unfold byte_ in HF. destruct bs as [|b bs]; [discriminate HF|].
    destruct HF as [(e2 & _ & E)|(a & pre & rest & _ & _ & HF)]; [discriminate E|]. destruct b; cbv in HF; first [exact HF|discriminate HF]. }
  destruct e as [e|k|e|e]; [destruct (Hn e eq_refl)|intros bytes Hc; exact Hc|exact (nn_u32 e)|exact (nn_invalid_exportdesc e)].
Qed.
Lemma sh_contents k : Short (Fcontents k) n_module.
Proof.
  assert (A : forall {E} (F : faulty E) n, (forall e, N0 (n e)) -> Short F n) by (intros E F n H bs stop e _; apply brief_none, H).
  destruct k; unfold Fcontents; try solve [apply sh_at, A; intros e; first
    [ exact (nn_type_section (TypeSec_DecodeList e))|exact (nn_function_section (FuncSec_DecodeList e))|exact (nn_table_section (TableSec_DecodeList e))
    | exact (nn_memory_section (MemSec_DecodeList e))|exact (nn_tag_section (TagSec_DecodeList e))|exact (nn_global_section (GlobalSec_DecodeList e))
    | exact (nn_start_section (StartSecE e))|exact (nn_elem_section (ElemSec_DecodeList e))|exact (nn_datacount_section (DC_DecodeDataSegmentCount e))
    | exact (nn_code_section (CodeSec_DecodeList e))|exact (nn_data_section (DataSec_DecodeList e))]].
  - apply sh_field; [exact sh_name|]. intros _ bs stop e (x & _ & ->). apply brief_none. intros bytes Hc. exact Hc.
  - apply sh_at. exact (sh_list Bimport Fimport n_import sh_import).
  - apply sh_at. exact (sh_list Bexport Fexport n_export sh_export).
Qed.
Lemma fenced_le n rest stop bs' stop' : fenced n rest stop = (bs', stop') -> List.length bs' <= List.length rest.
Proof. unfold fenced. destruct (_ <=? _)%N; intros [= <- _]; rewrite ?firstn_length; lia. Qed.
Theorem error_brief bs stop e : diagnosis bs stop e -> brief (List.length bs) (n_module e).
Proof.
  assert (A : forall n a, N0 n -> brief a n) by (intros n a; apply brief_none).
  intros D. destruct D as [_|_ Hp|xs w k _ _ _ _ _|xs w b rest _ _ _ Hb|xs w k rest e _ _ _ _|xs w k nb n rest e _ _ Eb _ HW|xs w e _ _ _ _ HI].
  - apply A. intros bytes Hc. exact Hc.
  - apply A. intros bytes Hc. exact Hc.
  - apply A. intros bytes Hc. exact Hc.
  - apply A. intros bytes Hc. exact Hc.
  - apply A. exact (nn_u32 e).
  - destruct HW as [e [p _ _|]|bs' stop' e _ Hf HF|x q rest' e _ _ _ _ _ [l _|l m _ _]|x q rest' _ _ _ _ Hlt _|c _ _ Hlt _].
    3: { apply (brief_le (List.length bs')); [|exact (sh_contents k bs' stop' e HF)]. apply fenced_le in Hf. rewrite Eb, !app_length. cbn [List.length]. rewrite app_length. lia. }
    all: apply A; intros bytes Hc; exact Hc.
  - destruct HI as [_ _|n _ _ Hne|ls e i _ _ _ _ _]; apply A; intros bytes Hc; exact Hc.
Qed.
Lemma error_preamble bs stop b : diagnosis bs stop (DM_ParsePreamble (Pre_Unexpected b)) -> List.length b <= 8.
Proof.
  intros D. remember (DM_ParsePreamble (Pre_Unexpected b)) as e eqn:E.
  destruct D as [_|_ Hp|xs w k _ _ _ _ _|xs w b' rest _ _ _ Hb|xs w k rest e _ _ _ _|xs w k nb n rest e _ _ Eb _ HW|xs w e _ _ _ _ HI]; try discriminate E.
  - assert (K : firstn 8 bs = b) by congruence. rewrite <- K. rewrite firstn_length. lia.
  - exfalso. destruct HW as [e [p _ _|]|bs' stop' e _ Hf HF|x q rest' e _ _ _ _ _ [l _|l m _ _]|x q rest' _ _ _ _ Hlt _|c _ _ Hlt _]; try discriminate E. subst e.
    destruct k; unfold Fcontents in HF; try solve [destruct HF as (e' & _ & E); discriminate E].
    destruct HF as [(e' & _ & E)|(a & pre & rest' & _ & _ & (y & _ & E))]; discriminate E.
  - exfalso. destruct HI; discriminate E.
Qed.
Lemma error_text_rows (T : Texts) e : readable T -> text_rows (debug_error e) = tall (d_DecodeModuleError e).
Proof.
  intros HT. pose proof (error_wf HT e) as Hw. unfold debug_error. rewrite (pretty_page true _ Hw), page_rows; [apply tall_lines|apply lines_some|].
  apply (lines_one true _ Hw); no_newline.
Qed.
Lemma tree_text_rows t : well_formed t -> text_rows (pretty t) = tall t.
Proof.
  intros Hw%well_formed_wf. rewrite (pretty_page true _ Hw), page_rows; [apply tall_lines|apply lines_some|].
  apply (lines_one true _ Hw); no_newline.
Qed.
