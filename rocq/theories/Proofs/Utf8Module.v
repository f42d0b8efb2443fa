(** The bytes in a FromUtf8Error, anywhere in an error of [decode_module], are
    not UTF-8. *)
From Verif Require Import Model.Prelude Model.Io Model.Ast Model.Errors Model.Display Model.Module.
From Verif Require Import Spec.Lang Spec.Types Spec.Instr Spec.Module Spec.Streams Spec.Leb Spec.Layout Spec.Faults Spec.Diagnosis Spec.Utf8.

(** errors without a name *)
Definition N0 (n : node) : Prop := forall bytes, ~ carries n bytes.
Create HintDb names.
Ltac nn := let e := fresh "e" in intros e; destruct e; intros bytes Hc; cbn in Hc; try exact Hc; eauto with names;
  first [ match goal with H : forall x, N0 (?f x), Hc : carries (?f ?y) ?b |- _ => exact (H y b Hc) end
        | lazymatch type of Hc with carries ?t _ => assert (K : N0 t) by (auto with names); exact (K _ Hc) end ].
Lemma nn_u32 : forall e, N0 (n_u32 e). Proof. nn. Qed.
Lemma nn_u64 : forall e, N0 (n_u64 e). Proof. nn. Qed.
Lemma nn_i32 : forall e, N0 (n_i32 e). Proof. nn. Qed.
Lemma nn_i64 : forall e, N0 (n_i64 e). Proof. nn. Qed.
Lemma nn_s33 : forall e, N0 (n_s33 e). Proof. nn. Qed.
#[local] Hint Resolve nn_u32 nn_u64 nn_i32 nn_i64 nn_s33 : names.
Lemma nn_typeidx : forall e, N0 (n_typeidx e). Proof. nn. Qed.
Lemma nn_funcidx : forall e, N0 (n_funcidx e). Proof. nn. Qed.
Lemma nn_tableidx : forall e, N0 (n_tableidx e). Proof. nn. Qed.
Lemma nn_memidx : forall e, N0 (n_memidx e). Proof. nn. Qed.
Lemma nn_globalidx : forall e, N0 (n_globalidx e). Proof. nn. Qed.
Lemma nn_elemidx : forall e, N0 (n_elemidx e). Proof. nn. Qed.
Lemma nn_dataidx : forall e, N0 (n_dataidx e). Proof. nn. Qed.
Lemma nn_localidx : forall e, N0 (n_localidx e). Proof. nn. Qed.
Lemma nn_labelidx : forall e, N0 (n_labelidx e). Proof. nn. Qed.
Lemma nn_tagidx : forall e, N0 (n_tagidx e). Proof. nn. Qed.
Lemma nn_f32 : forall e, N0 (n_f32 e). Proof. nn. Qed.
Lemma nn_f64 : forall e, N0 (n_f64 e). Proof. nn. Qed.
Lemma nn_byte_vector : forall e, N0 (n_byte_vector e). Proof. nn. Qed.
#[local] Hint Resolve nn_typeidx nn_funcidx nn_tableidx nn_memidx nn_globalidx nn_elemidx nn_dataidx nn_localidx nn_labelidx nn_tagidx nn_f32 nn_f64 nn_byte_vector : names.
Lemma nn_list {E} (n : E -> node) : (forall e, N0 (n e)) -> forall e, N0 (n_list n e).
Proof. intros H. nn. Qed.
#[local] Hint Resolve nn_list : names.
Lemma nn_invalid_absheaptype : forall e, N0 (n_invalid_absheaptype e). Proof. nn. Qed.
#[local] Hint Resolve nn_invalid_absheaptype : names.
Lemma nn_absheaptype : forall e, N0 (n_absheaptype e). Proof. nn. Qed.
#[local] Hint Resolve nn_absheaptype : names.
Lemma nn_heaptype : forall e, N0 (n_heaptype e). Proof. nn. Qed.
#[local] Hint Resolve nn_heaptype : names.
Lemma nn_reftype : forall e, N0 (n_reftype e). Proof. nn. Qed.
#[local] Hint Resolve nn_reftype : names.
Lemma nn_valtype : forall e, N0 (n_valtype e). Proof. nn. Qed.
#[local] Hint Resolve nn_valtype : names.
Lemma nn_resulttype : forall e, N0 (n_resulttype e). Proof. nn. Qed.
#[local] Hint Resolve nn_resulttype : names.
Lemma nn_invalid_mut : forall e, N0 (n_invalid_mut e). Proof. nn. Qed.
#[local] Hint Resolve nn_invalid_mut : names.
Lemma nn_invalid_packtype : forall e, N0 (n_invalid_packtype e). Proof. nn. Qed.
#[local] Hint Resolve nn_invalid_packtype : names.
Lemma nn_globaltype : forall e, N0 (n_globaltype e). Proof. nn. Qed.
#[local] Hint Resolve nn_globaltype : names.
Lemma nn_storagetype : forall e, N0 (n_storagetype e). Proof. nn. Qed.
#[local] Hint Resolve nn_storagetype : names.
Lemma nn_fieldtype : forall e, N0 (n_fieldtype e). Proof. nn. Qed.
#[local] Hint Resolve nn_fieldtype : names.
Lemma nn_comptype : forall e, N0 (n_comptype e). Proof. nn. Qed.
#[local] Hint Resolve nn_comptype : names.
Lemma nn_subtype : forall e, N0 (n_subtype e). Proof. nn. Qed.
#[local] Hint Resolve nn_subtype : names.
Lemma nn_rectype : forall e, N0 (n_rectype e). Proof. nn. Qed.
#[local] Hint Resolve nn_rectype : names.
Lemma nn_limits : forall e, N0 (n_limits e). Proof. nn. Qed.
#[local] Hint Resolve nn_limits : names.
Lemma nn_memtype : forall e, N0 (n_memtype e). Proof. nn. Qed.
#[local] Hint Resolve nn_memtype : names.
Lemma nn_tabletype : forall e, N0 (n_tabletype e). Proof. nn. Qed.
#[local] Hint Resolve nn_tabletype : names.
Lemma nn_tagtype : forall e, N0 (n_tagtype e). Proof. nn. Qed.
#[local] Hint Resolve nn_tagtype : names.
Lemma nn_externtype : forall e, N0 (n_externtype e). Proof. nn. Qed.
#[local] Hint Resolve nn_externtype : names.
Lemma nn_memarg : forall e, N0 (n_memarg e). Proof. nn. Qed.
#[local] Hint Resolve nn_memarg : names.
Lemma nn_laneidx : forall e, N0 (n_laneidx e). Proof. nn. Qed.
#[local] Hint Resolve nn_laneidx : names.
Lemma nn_blocktype : forall e, N0 (n_blocktype e). Proof. nn. Qed.
#[local] Hint Resolve nn_blocktype : names.
Lemma nn_catch : forall e, N0 (n_catch e). Proof. nn. Qed.
#[local] Hint Resolve nn_catch : names.
Lemma nn_control : forall e, N0 (n_control e). Proof. nn. Qed.
#[local] Hint Resolve nn_control : names.
Lemma nn_reference : forall e, N0 (n_reference e). Proof. nn. Qed.
#[local] Hint Resolve nn_reference : names.
Lemma nn_aggregate : forall e, N0 (n_aggregate e). Proof. nn. Qed.
#[local] Hint Resolve nn_aggregate : names.
Lemma nn_parametric : forall e, N0 (n_parametric e). Proof. nn. Qed.
#[local] Hint Resolve nn_parametric : names.
Lemma nn_variable : forall e, N0 (n_variable e). Proof. nn. Qed.
#[local] Hint Resolve nn_variable : names.
Lemma nn_table_instr : forall e, N0 (n_table_instr e). Proof. nn. Qed.
#[local] Hint Resolve nn_table_instr : names.
Lemma nn_memory_instr : forall e, N0 (n_memory_instr e). Proof. nn. Qed.
#[local] Hint Resolve nn_memory_instr : names.
Lemma nn_numeric : forall e, N0 (n_numeric e). Proof. nn. Qed.
#[local] Hint Resolve nn_numeric : names.
Lemma nn_vector : forall e, N0 (n_vector e). Proof. nn. Qed.
#[local] Hint Resolve nn_vector : names.
Lemma nn_instr : forall e, N0 (n_instr e). Proof. nn. Qed.
#[local] Hint Resolve nn_instr : names.
Lemma nn_expr : forall e, N0 (n_expr e). Proof. nn. Qed.
#[local] Hint Resolve nn_expr : names.
Lemma nn_type_section : forall e, N0 (n_type_section e). Proof. nn. Qed.
#[local] Hint Resolve nn_type_section : names.
Lemma nn_function_section : forall e, N0 (n_function_section e). Proof. nn. Qed.
#[local] Hint Resolve nn_function_section : names.
Lemma nn_table : forall e, N0 (n_table e). Proof. nn. Qed.
#[local] Hint Resolve nn_table : names.
Lemma nn_table_section : forall e, N0 (n_table_section e). Proof. nn. Qed.
#[local] Hint Resolve nn_table_section : names.
Lemma nn_memory_section : forall e, N0 (n_memory_section e). Proof. nn. Qed.
#[local] Hint Resolve nn_memory_section : names.
Lemma nn_tag_section : forall e, N0 (n_tag_section e). Proof. nn. Qed.
#[local] Hint Resolve nn_tag_section : names.
Lemma nn_global : forall e, N0 (n_global e). Proof. nn. Qed.
#[local] Hint Resolve nn_global : names.
Lemma nn_global_section : forall e, N0 (n_global_section e). Proof. nn. Qed.
#[local] Hint Resolve nn_global_section : names.
Lemma nn_invalid_exportdesc : forall e, N0 (n_invalid_exportdesc e). Proof. nn. Qed.
#[local] Hint Resolve nn_invalid_exportdesc : names.
Lemma nn_start_section : forall e, N0 (n_start_section e). Proof. nn. Qed.
#[local] Hint Resolve nn_start_section : names.
Lemma nn_elemkind : forall e, N0 (n_elemkind e). Proof. nn. Qed.
#[local] Hint Resolve nn_elemkind : names.
Lemma nn_elem : forall e, N0 (n_elem e). Proof. nn. Qed.
#[local] Hint Resolve nn_elem : names.
Lemma nn_elem_section : forall e, N0 (n_elem_section e). Proof. nn. Qed.
#[local] Hint Resolve nn_elem_section : names.
Lemma nn_datacount_section : forall e, N0 (n_datacount_section e). Proof. nn. Qed.
#[local] Hint Resolve nn_datacount_section : names.
Lemma nn_locals : forall e, N0 (n_locals e). Proof. nn. Qed.
#[local] Hint Resolve nn_locals : names.
Lemma nn_code : forall e, N0 (n_code e). Proof. nn. Qed.
#[local] Hint Resolve nn_code : names.
Lemma nn_code_section : forall e, N0 (n_code_section e). Proof. nn. Qed.
#[local] Hint Resolve nn_code_section : names.
Lemma nn_data : forall e, N0 (n_data e). Proof. nn. Qed.
#[local] Hint Resolve nn_data : names.
Lemma nn_data_section : forall e, N0 (n_data_section e). Proof. nn. Qed.
#[local] Hint Resolve nn_data_section : names.
Lemma nn_preamble : forall e, N0 (n_preamble e). Proof. nn. Qed.
#[local] Hint Resolve nn_preamble : names.
Lemma nn_invalid_section_id : forall e, N0 (n_invalid_section_id e). Proof. nn. Qed.
#[local] Hint Resolve nn_invalid_section_id : names.
Lemma nn_section_header : forall e, N0 (n_section_header e). Proof. nn. Qed.
#[local] Hint Resolve nn_section_header : names.

(** ** faults *)
Definition U (n : node) : Prop := forall bytes, carries n bytes -> ~ utf8 bytes.
Lemma u_none n : N0 n -> U n. Proof. intros H bytes Hc. destruct (H bytes Hc). Qed.
Definition Un {E} (F : faulty E) (n : E -> node) : Prop := forall bs stop e, F bs stop e -> U (n e).
Lemma un_at {E E'} (f : E -> E') F n : Un F (fun x => n (f x)) -> Un (at_ f F) n.
Proof. intros K bs stop e (e' & HF & ->). exact (K bs stop e' HF). Qed.
Lemma un_field {A E E'} (f : E -> E') F (X : lang A) K n : Un F (fun x => n (f x)) -> (forall a, Un (K a) n) -> Un (field f F X K) n.
Proof. intros K1 K2 bs stop e [HF|(a & pre & rest & _ & _ & HF)]; [exact (un_at f F n K1 bs stop e HF)|exact (K2 a rest stop e HF)]. Qed.
Lemma un_name : Un Fname n_name.
Proof.
  unfold Fname. apply un_field; [intros bs stop e _; apply u_none; intros bytes; exact (nn_byte_vector e bytes)|].
  intros s bs stop e [Hs ->] bytes Hc. cbn in Hc. subst bytes. exact Hs.
Qed.
Lemma un_list {A E} (X : lang A) (F : faulty E) n : Un F n -> Un (Flist X F) (n_list n).
Proof.
  intros K. apply un_field; [intros bs stop e _; apply u_none; intros bytes; exact (nn_u32 e bytes)|].
  intros a bs stop e (xs & w & rest & e' & _ & _ & _ & HF & ->). exact (K rest stop e' HF).
Qed.
Lemma un_import : Un Fimport n_import.
Proof.
  unfold Fimport. apply un_field; [exact un_name|]. intros _. apply un_field; [exact un_name|]. intros _. apply un_at.
  intros bs stop e _. apply u_none. exact (nn_externtype e).
Qed.
Lemma un_export : Un Fexport n_export.
Proof.
  unfold Fexport. apply un_field; [exact un_name|]. intros _ bs stop e HF. apply u_none.
  assert (Hn : forall e', e <> Exp_DecodeName e').
  { intros e' ->. unfold byte_ in HF. destruct bs as [|b bs]; [discriminate HF|].
    destruct HF as [(e2 & _ & E)|(a & pre & rest & _ & _ & HF)]; [discriminate E|]. destruct b; cbv in HF; first [exact HF|discriminate HF]. }
  destruct e as [e|k|e|e]; [destruct (Hn e eq_refl)|intros bytes Hc; exact Hc|exact (nn_u32 e)|exact (nn_invalid_exportdesc e)].
Qed.
Lemma un_contents k : Un (Fcontents k) n_module.
Proof.
  assert (A : forall {E} (F : faulty E) n, (forall e, N0 (n e)) -> Un F n) by (intros E F n H bs stop e _; apply u_none, H).
  destruct k; unfold Fcontents; try solve [apply un_at, A; intros e; first
    [ exact (nn_type_section (TypeSec_DecodeList e))|exact (nn_function_section (FuncSec_DecodeList e))|exact (nn_table_section (TableSec_DecodeList e))
    | exact (nn_memory_section (MemSec_DecodeList e))|exact (nn_tag_section (TagSec_DecodeList e))|exact (nn_global_section (GlobalSec_DecodeList e))
    | exact (nn_start_section (StartSecE e))|exact (nn_elem_section (ElemSec_DecodeList e))|exact (nn_datacount_section (DC_DecodeDataSegmentCount e))
    | exact (nn_code_section (CodeSec_DecodeList e))|exact (nn_data_section (DataSec_DecodeList e))]].
  - apply un_field; [exact un_name|]. intros _ bs stop e (x & _ & ->). apply u_none. intros bytes Hc. exact Hc.
  - apply un_at. exact (un_list Bimport Fimport n_import un_import).
  - apply un_at. exact (un_list Bexport Fexport n_export un_export).
Qed.
Theorem error_not_utf8 bs stop e : diagnosis bs stop e -> U (n_module e).
Proof.
  assert (A : forall n, N0 n -> U n) by exact u_none.
  intros D. destruct D as [_|_ Hp|xs w k _ _ _ _ _|xs w b rest _ _ _ Hb|xs w k rest e _ _ _ _|xs w k nb n rest e _ _ _ _ HW|xs w e _ _ _ _ HI].
  - apply A. intros bytes Hc. exact Hc.
  - apply A. intros bytes Hc. exact Hc.
  - apply A. intros bytes Hc. exact Hc.
  - apply A. intros bytes Hc. exact Hc.
  - apply A. exact (nn_u32 e).
  - destruct HW as [e [p _ _|_]|bs' stop' e _ _ HF|x q rest' e _ _ _ _ _ [l _|l m _ _]|x q rest' _ _ _ _ Hlt _|c _ _ Hlt _].
    3: exact (un_contents k bs' stop' e HF).
    all: apply A; intros bytes Hc; exact Hc.
  - destruct HI as [_ _|n _ _ Hne|ls e i _ _ _ _ _]; apply A; intros bytes Hc; exact Hc.
Qed.
