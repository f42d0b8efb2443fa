(** C65: the messages of the errors are single lines of printable characters,
    and there are at most ten in a chain. *)
From Verif Require Import Model.Prelude Model.Io Model.Ast Model.Errors Model.Display Model.Module Model.Debug Model.DebugError Model.Cli.
From Verif Require Import Spec.Cli Spec.Debug Spec.Outline Spec.Report Proofs.Decimal Proofs.Pretty Proofs.Debug Proofs.DebugError Proofs.Outline.
From Coq Require Import Bool Lia ZifyN ZifyNat ZifyBool String Ascii.
Local Open Scope string_scope.

(** ** characters *)
Definition printableb (c : ascii) : bool := let n := N_of_ascii c in ((32 <=? n) && negb (n =? 127))%N.
Lemma printableb_ok c : printableb c = true -> printable c.
Proof. unfold printableb, printable. cbv zeta. lia. Qed.
Fixpoint plainb (s : string) : bool := match s with "" => true | String c s => printableb c && plainb s end.
Lemma plainb_ok s : plainb s = true -> plain_line s.
Proof.
  induction s as [|c s IH]; intros H; [constructor|]. cbn [plainb] in H. apply andb_prop in H as [H1 H2]. constructor; [exact (printableb_ok c H1)|exact (IH H2)].
Qed.
Lemma plain_app a b : plain_line a -> plain_line b -> plain_line (a ++ b).
Proof. unfold plain_line. rewrite chars_app. intros. apply Forall_app. auto. Qed.
Lemma lines_app a b : plain_lines a -> plain_lines b -> plain_lines (a ++ b).
Proof. unfold plain_lines. rewrite chars_app. intros. apply Forall_app. auto. Qed.
Lemma plain_lines_of s : plain_line s -> plain_lines s.
Proof. unfold plain_line, plain_lines. apply Forall_impl. auto. Qed.
Lemma nl_lines : plain_lines nl.
Proof. constructor; [right; reflexivity|constructor]. Qed.
Lemma token_plain s : token s -> plain_line s.
Proof.
  intros [_ H]. unfold plain_line. eapply Forall_impl; [|exact H]. intros c Hc. unfold token_char in Hc. cbv zeta in Hc. unfold printable. apply orb_prop in Hc as [Hc|Hc]; [lia|].
  cbn [existsb] in Hc. rewrite !orb_true_iff, !Ascii.eqb_eq in Hc. destruct Hc as [->|[->|[->|[->|Hc]]]]; try (split; [vm_compute; discriminate|discriminate]).
Qed.
Lemma literal_plain s : literal s -> plain_line s.
Proof.
  intros [s' H]. constructor; [apply printableb_ok; reflexivity|]. induction H as [|c w H1 H2 H3 _ IH|c w H1 _ IH].
  - constructor; [apply printableb_ok; reflexivity|constructor].
  - constructor; assumption.
  - constructor; [apply printableb_ok; reflexivity|constructor; assumption].
Qed.
Lemma atom_plain s : atom s -> plain_line s.
Proof. intros [H|[H| ->]]; [exact (token_plain s H)|exact (literal_plain s H)|apply plainb_ok; reflexivity]. Qed.

(** ** numbers *)
Lemma digit_plain d : (d < 16)%N -> plain_line (digit d).
Proof.
  intros H. unfold digit. constructor; [|constructor]. unfold printable. assert (K : ((if (d <? 10) then 48 + d else 55 + d) < 256)%N) by (destruct (d <? 10)%N; lia).
  rewrite (N_ascii_embedding _ K). destruct (d <? 10)%N; lia.
Qed.
Lemma digits_plain base fuel : (0 < base <= 16)%N -> forall n, plain_line (digits base fuel n).
Proof.
  intros Hb. induction fuel as [|fuel IH]; intros n; cbn [digits].
  - apply digit_plain. pose proof (N.mod_lt n base). lia.
  - destruct (N.ltb_spec n base) as [H|H]; [apply digit_plain; lia|]. apply plain_app; [apply IH|]. apply digit_plain. pose proof (N.mod_lt n base). lia.
Qed.
Lemma dec_plain n : plain_line (dec n).
Proof. apply digits_plain. lia. Qed.
Lemma decZ_plain z : plain_line (decZ z).
Proof. unfold decZ. destruct (z <? 0)%Z; [apply plain_app; [apply plainb_ok; reflexivity|]|]; apply dec_plain. Qed.
Lemma hex_plain n : plain_line (hex n).
Proof. unfold hex. apply plain_app; [apply plainb_ok; reflexivity|apply digits_plain; lia]. Qed.
Lemma hex04_plain n : plain_line (hex04 n).
Proof. unfold hex04. destruct (N.ltb_spec n 16); [|apply hex_plain]. apply plain_app; [apply plainb_ok; reflexivity|apply digit_plain; assumption]. Qed.
Lemma hexb_plain b : plain_line (hexb b).
Proof. apply hex04_plain. Qed.
Lemma section_plain k : plain_line (debug_section k).
Proof. destruct k; apply plainb_ok; reflexivity. Qed.
Lemma markers_plain : plain_line mut_markers /\ plain_line absheaptype_markers /\ plain_line section_markers.
Proof. repeat apply conj; apply plainb_ok; vm_compute; reflexivity. Qed.
Lemma debug_bytes_lines bs : plain_lines (debug_bytes bs).
Proof.
  unfold debug_bytes. apply lines_app; [apply plain_lines_of, plainb_ok; reflexivity|]. apply lines_app; [exact nl_lines|]. apply lines_app; [|apply plain_lines_of, plainb_ok; reflexivity].
  induction bs as [|b bs IH]; cbn [fold_right]; [constructor|]. apply lines_app; [apply plain_lines_of, plainb_ok; reflexivity|].
  apply lines_app; [apply plain_lines_of, hex_plain|]. apply lines_app; [apply plain_lines_of, plainb_ok; reflexivity|]. apply lines_app; [exact nl_lines|exact IH].
Qed.

(** ** chains *)
Inductive tidy : nat -> node -> Prop :=
| tidy_leaf k s : plain_line s -> tidy (S k) (Leaf s)
| tidy_io k e : tidy (S k) (Io e)
| tidy_utf8 k bs : tidy (S k) (FromUtf8 bs)
| tidy_transparent k n : tidy k n -> tidy k (Transparent n)
| tidy_message k s n : plain_line s -> tidy k n -> tidy (S k) (Message s n)
| tidy_detached k s n : plain_line s -> tidy (S k) (Detached s n).
Lemma tidy_le k n : tidy k n -> forall k', k <= k' -> tidy k' n.
Proof.
  induction 1 as [k s H|k e|k bs|k n _ IH|k s n H _ IH|k s n H]; intros k' Hk.
  4: { apply tidy_transparent. exact (IH k' Hk). }
  all: destruct k' as [|k']; [lia|]; constructor; auto. apply IH. lia.
Qed.
Create HintDb tidy.
Ltac plain := lazymatch goal with
  | |- plain_line (_ ++ _) => apply plain_app; plain
  | |- plain_line (dec _) => apply dec_plain
  | |- plain_line (decZ _) => apply decZ_plain
  | |- plain_line (hexb _) => apply hexb_plain
  | |- plain_line (hex04 _) => apply hex04_plain
  | |- plain_line (debug_section _) => apply section_plain
  | |- plain_line mut_markers => apply markers_plain
  | |- plain_line absheaptype_markers => apply markers_plain
  | |- plain_line section_markers => apply markers_plain
  | |- _ => apply plainb_ok; reflexivity end.
Lemma t_list {E} (f : E -> node) k e : (forall x, tidy (S k) (f x)) -> tidy (S (S k)) (n_list f e).
Proof.
  intros H. destruct e as [[| |x]|p s]; cbn [n_list n_u32]; (apply tidy_message; [plain|]); [apply tidy_leaf; plain|apply tidy_leaf; plain|apply tidy_transparent, tidy_io|apply H].
Qed.
Ltac tidy_all := lazymatch goal with
  | |- tidy _ (Leaf _) => apply tidy_leaf; plain
  | |- tidy _ (Io _) => apply tidy_io
  | |- tidy _ (FromUtf8 _) => apply tidy_utf8
  | |- tidy _ (Transparent _) => apply tidy_transparent; tidy_all
  | |- tidy _ (Message _ _) => apply tidy_message; [plain|tidy_all]
  | |- tidy _ (Detached _ _) => apply tidy_detached; plain
  | |- tidy _ (n_index _ _) => unfold n_index; tidy_all
  | |- tidy _ (n_list _ _) => apply t_list; intros ?x; tidy_all
  | |- tidy _ _ => eapply tidy_le; [solve [eauto with tidy]|lia] end.
Lemma t_u32 e : tidy 1 (n_u32 e). Proof. destruct e; cbn [n_u32]; tidy_all. Qed.
#[local] Hint Resolve t_u32 : tidy.
Lemma t_u64 e : tidy 1 (n_u64 e). Proof. destruct e; cbn [n_u64]; tidy_all. Qed.
#[local] Hint Resolve t_u64 : tidy.
Lemma t_i32 e : tidy 1 (n_i32 e). Proof. destruct e; cbn [n_i32]; tidy_all. Qed.
#[local] Hint Resolve t_i32 : tidy.
Lemma t_i64 e : tidy 1 (n_i64 e). Proof. destruct e; cbn [n_i64]; tidy_all. Qed.
#[local] Hint Resolve t_i64 : tidy.
Lemma t_s33 e : tidy 1 (n_s33 e). Proof. destruct e; cbn [n_s33]; tidy_all. Qed.
#[local] Hint Resolve t_s33 : tidy.
Lemma t_typeidx e : tidy 2 (n_typeidx e). Proof. destruct e; cbn [n_typeidx]; tidy_all. Qed.
#[local] Hint Resolve t_typeidx : tidy.
Lemma t_funcidx e : tidy 2 (n_funcidx e). Proof. destruct e; cbn [n_funcidx]; tidy_all. Qed.
#[local] Hint Resolve t_funcidx : tidy.
Lemma t_tableidx e : tidy 2 (n_tableidx e). Proof. destruct e; cbn [n_tableidx]; tidy_all. Qed.
#[local] Hint Resolve t_tableidx : tidy.
Lemma t_memidx e : tidy 2 (n_memidx e). Proof. destruct e; cbn [n_memidx]; tidy_all. Qed.
#[local] Hint Resolve t_memidx : tidy.
Lemma t_globalidx e : tidy 2 (n_globalidx e). Proof. destruct e; cbn [n_globalidx]; tidy_all. Qed.
#[local] Hint Resolve t_globalidx : tidy.
Lemma t_elemidx e : tidy 2 (n_elemidx e). Proof. destruct e; cbn [n_elemidx]; tidy_all. Qed.
#[local] Hint Resolve t_elemidx : tidy.
Lemma t_dataidx e : tidy 2 (n_dataidx e). Proof. destruct e; cbn [n_dataidx]; tidy_all. Qed.
#[local] Hint Resolve t_dataidx : tidy.
Lemma t_localidx e : tidy 2 (n_localidx e). Proof. destruct e; cbn [n_localidx]; tidy_all. Qed.
#[local] Hint Resolve t_localidx : tidy.
Lemma t_labelidx e : tidy 2 (n_labelidx e). Proof. destruct e; cbn [n_labelidx]; tidy_all. Qed.
#[local] Hint Resolve t_labelidx : tidy.
Lemma t_tagidx e : tidy 2 (n_tagidx e). Proof. destruct e; cbn [n_tagidx]; tidy_all. Qed.
#[local] Hint Resolve t_tagidx : tidy.
Lemma t_f32 e : tidy 2 (n_f32 e). Proof. destruct e; cbn [n_f32]; tidy_all. Qed.
#[local] Hint Resolve t_f32 : tidy.
Lemma t_f64 e : tidy 2 (n_f64 e). Proof. destruct e; cbn [n_f64]; tidy_all. Qed.
#[local] Hint Resolve t_f64 : tidy.
Lemma t_byte_vector e : tidy 2 (n_byte_vector e). Proof. destruct e; cbn [n_byte_vector]; tidy_all. Qed.
#[local] Hint Resolve t_byte_vector : tidy.
Lemma t_name e : tidy 2 (n_name e). Proof. destruct e; cbn [n_name]; tidy_all. Qed.
#[local] Hint Resolve t_name : tidy.
Lemma t_invalid_absheaptype e : tidy 1 (n_invalid_absheaptype e). Proof. destruct e; cbn [n_invalid_absheaptype]; tidy_all. Qed.
#[local] Hint Resolve t_invalid_absheaptype : tidy.
Lemma t_absheaptype e : tidy 2 (n_absheaptype e). Proof. destruct e; cbn [n_absheaptype]; tidy_all. Qed.
#[local] Hint Resolve t_absheaptype : tidy.
Lemma t_heaptype e : tidy 2 (n_heaptype e). Proof. destruct e; cbn [n_heaptype]; tidy_all. Qed.
#[local] Hint Resolve t_heaptype : tidy.
Lemma t_reftype e : tidy 2 (n_reftype e). Proof. destruct e; cbn [n_reftype]; tidy_all. Qed.
#[local] Hint Resolve t_reftype : tidy.
Lemma t_valtype e : tidy 2 (n_valtype e). Proof. destruct e; cbn [n_valtype]; tidy_all. Qed.
#[local] Hint Resolve t_valtype : tidy.
Lemma t_resulttype e : tidy 3 (n_resulttype e). Proof. destruct e; cbn [n_resulttype]; tidy_all. Qed.
#[local] Hint Resolve t_resulttype : tidy.
Lemma t_invalid_mut e : tidy 1 (n_invalid_mut e). Proof. destruct e; cbn [n_invalid_mut]; tidy_all. Qed.
#[local] Hint Resolve t_invalid_mut : tidy.
Lemma t_globaltype e : tidy 3 (n_globaltype e). Proof. destruct e; cbn [n_globaltype]; tidy_all. Qed.
#[local] Hint Resolve t_globaltype : tidy.
Lemma t_storagetype e : tidy 3 (n_storagetype e). Proof. destruct e; cbn [n_storagetype]; tidy_all. Qed.
#[local] Hint Resolve t_storagetype : tidy.
Lemma t_fieldtype e : tidy 3 (n_fieldtype e). Proof. destruct e; cbn [n_fieldtype]; tidy_all. Qed.
#[local] Hint Resolve t_fieldtype : tidy.
Lemma t_comptype e : tidy 5 (n_comptype e). Proof. destruct e; cbn [n_comptype]; tidy_all. Qed.
#[local] Hint Resolve t_comptype : tidy.
Lemma t_subtype e : tidy 6 (n_subtype e). Proof. destruct e; cbn [n_subtype]; tidy_all. Qed.
#[local] Hint Resolve t_subtype : tidy.
Lemma t_rectype e : tidy 8 (n_rectype e). Proof. destruct e; cbn [n_rectype]; tidy_all. Qed.
#[local] Hint Resolve t_rectype : tidy.
Lemma t_limits e : tidy 1 (n_limits e). Proof. destruct e; cbn [n_limits]; tidy_all. Qed.
#[local] Hint Resolve t_limits : tidy.
Lemma t_memtype e : tidy 2 (n_memtype e). Proof. destruct e; cbn [n_memtype]; tidy_all. Qed.
#[local] Hint Resolve t_memtype : tidy.
Lemma t_tabletype e : tidy 2 (n_tabletype e). Proof. destruct e; cbn [n_tabletype]; tidy_all. Qed.
#[local] Hint Resolve t_tabletype : tidy.
Lemma t_tagtype e : tidy 3 (n_tagtype e). Proof. destruct e; cbn [n_tagtype]; tidy_all. Qed.
#[local] Hint Resolve t_tagtype : tidy.
Lemma t_externtype e : tidy 3 (n_externtype e). Proof. destruct e; cbn [n_externtype]; tidy_all. Qed.
#[local] Hint Resolve t_externtype : tidy.
Lemma t_memarg e : tidy 3 (n_memarg e). Proof. destruct e; cbn [n_memarg]; tidy_all. Qed.
#[local] Hint Resolve t_memarg : tidy.
Lemma t_laneidx e : tidy 2 (n_laneidx e). Proof. destruct e; cbn [n_laneidx]; tidy_all. Qed.
#[local] Hint Resolve t_laneidx : tidy.
Lemma t_blocktype e : tidy 2 (n_blocktype e). Proof. destruct e; cbn [n_blocktype]; tidy_all. Qed.
#[local] Hint Resolve t_blocktype : tidy.
Lemma t_catch e : tidy 2 (n_catch e). Proof. destruct e; cbn [n_catch]; tidy_all. Qed.
#[local] Hint Resolve t_catch : tidy.
Lemma t_control e : tidy 4 (n_control e). Proof. destruct e; cbn [n_control]; tidy_all. Qed.
#[local] Hint Resolve t_control : tidy.
Lemma t_reference e : tidy 1 (n_reference e). Proof. destruct e; cbn [n_reference]; tidy_all. Qed.
#[local] Hint Resolve t_reference : tidy.
Lemma t_aggregate e : tidy 1 (n_aggregate e). Proof. destruct e; cbn [n_aggregate]; tidy_all. Qed.
#[local] Hint Resolve t_aggregate : tidy.
Lemma t_parametric e : tidy 4 (n_parametric e). Proof. destruct e; cbn [n_parametric]; tidy_all. Qed.
#[local] Hint Resolve t_parametric : tidy.
Lemma t_variable e : tidy 1 (n_variable e). Proof. destruct e; cbn [n_variable]; tidy_all. Qed.
#[local] Hint Resolve t_variable : tidy.
Lemma t_table_instr e : tidy 1 (n_table_instr e). Proof. destruct e; cbn [n_table_instr]; tidy_all. Qed.
#[local] Hint Resolve t_table_instr : tidy.
Lemma t_memory_instr e : tidy 1 (n_memory_instr e). Proof. destruct e; cbn [n_memory_instr]; tidy_all. Qed.
#[local] Hint Resolve t_memory_instr : tidy.
Lemma t_numeric e : tidy 2 (n_numeric e). Proof. destruct e; cbn [n_numeric]; tidy_all. Qed.
#[local] Hint Resolve t_numeric : tidy.
Lemma t_vector e : tidy 3 (n_vector e). Proof. destruct e; cbn [n_vector]; tidy_all. Qed.
#[local] Hint Resolve t_vector : tidy.
Lemma t_instr e : tidy 5 (n_instr e). Proof. destruct e; cbn [n_instr]; tidy_all. Qed.
#[local] Hint Resolve t_instr : tidy.
Lemma t_expr e : tidy 6 (n_expr e). Proof. destruct e; cbn [n_expr]; tidy_all. Qed.
#[local] Hint Resolve t_expr : tidy.
Lemma t_custom_section e : tidy 3 (n_custom_section e). Proof. destruct e; cbn [n_custom_section]; tidy_all. Qed.
#[local] Hint Resolve t_custom_section : tidy.
Lemma t_type_section e : tidy 10 (n_type_section e). Proof. destruct e; cbn [n_type_section]; tidy_all. Qed.
#[local] Hint Resolve t_type_section : tidy.
Lemma t_import e : tidy 3 (n_import e). Proof. destruct e; cbn [n_import]; tidy_all. Qed.
#[local] Hint Resolve t_import : tidy.
Lemma t_import_section e : tidy 5 (n_import_section e). Proof. destruct e; cbn [n_import_section]; tidy_all. Qed.
#[local] Hint Resolve t_import_section : tidy.
Lemma t_function_section e : tidy 4 (n_function_section e). Proof. destruct e; cbn [n_function_section]; tidy_all. Qed.
#[local] Hint Resolve t_function_section : tidy.
Lemma t_table e : tidy 6 (n_table e). Proof. destruct e; cbn [n_table]; tidy_all. Qed.
#[local] Hint Resolve t_table : tidy.
Lemma t_table_section e : tidy 8 (n_table_section e). Proof. destruct e; cbn [n_table_section]; tidy_all. Qed.
#[local] Hint Resolve t_table_section : tidy.
Lemma t_memory_section e : tidy 4 (n_memory_section e). Proof. destruct e; cbn [n_memory_section]; tidy_all. Qed.
#[local] Hint Resolve t_memory_section : tidy.
Lemma t_tag_section e : tidy 5 (n_tag_section e). Proof. destruct e; cbn [n_tag_section]; tidy_all. Qed.
#[local] Hint Resolve t_tag_section : tidy.
Lemma t_global e : tidy 7 (n_global e). Proof. destruct e; cbn [n_global]; tidy_all. Qed.
#[local] Hint Resolve t_global : tidy.
Lemma t_global_section e : tidy 9 (n_global_section e). Proof. destruct e; cbn [n_global_section]; tidy_all. Qed.
#[local] Hint Resolve t_global_section : tidy.
Lemma t_invalid_exportdesc e : tidy 1 (n_invalid_exportdesc e). Proof. destruct e; cbn [n_invalid_exportdesc]; tidy_all. Qed.
#[local] Hint Resolve t_invalid_exportdesc : tidy.
Lemma t_export e : tidy 2 (n_export e). Proof. destruct e; cbn [n_export]; tidy_all. Qed.
#[local] Hint Resolve t_export : tidy.
Lemma t_export_section e : tidy 4 (n_export_section e). Proof. destruct e; cbn [n_export_section]; tidy_all. Qed.
#[local] Hint Resolve t_export_section : tidy.
Lemma t_start_section e : tidy 3 (n_start_section e). Proof. destruct e; cbn [n_start_section]; tidy_all. Qed.
#[local] Hint Resolve t_start_section : tidy.
Lemma t_elemkind e : tidy 1 (n_elemkind e). Proof. destruct e; cbn [n_elemkind]; tidy_all. Qed.
#[local] Hint Resolve t_elemkind : tidy.
Lemma t_elem e : tidy 3 (n_elem e). Proof. destruct e; cbn [n_elem]; tidy_all. Qed.
#[local] Hint Resolve t_elem : tidy.
Lemma t_elem_section e : tidy 5 (n_elem_section e). Proof. destruct e; cbn [n_elem_section]; tidy_all. Qed.
#[local] Hint Resolve t_elem_section : tidy.
Lemma t_datacount_section e : tidy 2 (n_datacount_section e). Proof. destruct e; cbn [n_datacount_section]; tidy_all. Qed.
#[local] Hint Resolve t_datacount_section : tidy.
Lemma t_locals e : tidy 3 (n_locals e). Proof. destruct e; cbn [n_locals]; tidy_all. Qed.
#[local] Hint Resolve t_locals : tidy.
Lemma t_code e : tidy 7 (n_code e). Proof. destruct e; cbn [n_code]; tidy_all. Qed.
#[local] Hint Resolve t_code : tidy.
Lemma t_code_section e : tidy 9 (n_code_section e). Proof. destruct e; cbn [n_code_section]; tidy_all. Qed.
#[local] Hint Resolve t_code_section : tidy.
Lemma t_data e : tidy 3 (n_data e). Proof. destruct e; cbn [n_data]; tidy_all. Qed.
#[local] Hint Resolve t_data : tidy.
Lemma t_data_section e : tidy 5 (n_data_section e). Proof. destruct e; cbn [n_data_section]; tidy_all. Qed.
#[local] Hint Resolve t_data_section : tidy.
Lemma t_invalid_section_id e : tidy 1 (n_invalid_section_id e). Proof. destruct e; cbn [n_invalid_section_id]; tidy_all. Qed.
#[local] Hint Resolve t_invalid_section_id : tidy.
Lemma t_section_header e : tidy 2 (n_section_header e). Proof. destruct e; cbn [n_section_header]; tidy_all. Qed.
#[local] Hint Resolve t_section_header : tidy.

Lemma t_module e : (exists got, e = DM_ParsePreamble (Pre_Unexpected got)) \/ tidy 10 (n_module e).
Proof. destruct e as [[x|got]| | | | | | | | | | | | | | | | | | | | | | |]; [|left; eauto|..]; right; cbn [n_module n_preamble]; tidy_all. Qed.

Section Chains.
  Context {T : Texts} {d : nat} (HT : one_liners T d).
  Lemma tidy_causes k n cs : tidy k n -> causes (view n) cs -> List.length cs < k + d /\ Forall (fun c => plain_line (e_display c)) (view n :: cs).
  Proof.
    intros H. revert cs. induction H as [k s H|k e|k bs|k n _ IH|k s n H _ IH|k s n H]; cbn [view]; intros cs Hc.
    - inversion Hc as [? E|? ? ? E]; [subst|discriminate E]. split; [cbn; lia|repeat constructor; exact H].
    - destruct (io_line T d HT e cs Hc) as [H1 H2]. split; [lia|exact H2].
    - inversion Hc as [? E|? ? ? E]; [subst|discriminate E]. split; [cbn; lia|repeat constructor; apply HT].
    - exact (IH cs Hc).
    - inversion Hc as [? E|? c l E Hl]; [discriminate E|]. cbn [e_source] in E. injection E as <-. subst. destruct (IH l Hl) as [H1 H2].
      split; [cbn; lia|constructor; [exact H|exact H2]].
    - inversion Hc as [? E|? ? ? E]; [subst|discriminate E]. split; [cbn; lia|repeat constructor; exact H].
  Qed.
End Chains.

(** ** rows *)
Definition feeds (s : string) : nat := count_occ ascii_dec (chars s) newline.
Lemma feeds_app a b : feeds (a ++ b) = (feeds a + feeds b)%nat.
Proof. unfold feeds. rewrite chars_app. apply count_occ_app. Qed.
Lemma feeds_nl : feeds nl = 1%nat.
Proof. reflexivity. Qed.
Lemma feeds_plain s : plain_line s -> feeds s = 0%nat.
Proof.
  unfold plain_line, feeds. intros H. apply count_occ_not_In. intros Hi. rewrite Forall_forall in H. exact (printable_newline _ (H _ Hi) eq_refl).
Qed.
Lemma rows_cons s l : rows (s :: l) = (feeds s + 1 + rows l)%nat.
Proof. unfold rows. change (printed (s :: l)) with (s ++ nl ++ printed l). fold (feeds (s ++ nl ++ printed l)). rewrite !feeds_app, feeds_nl. unfold feeds. lia. Qed.
Lemma rows_nil : rows [] = 0%nat. Proof. reflexivity. Qed.
Lemma rows_cause_lines l : Forall (fun c => plain_line (e_display c)) l -> forall i, rows (cause_lines i l) = List.length l.
Proof.
  induction 1 as [|c l Hc _ IH]; intros i; cbn [cause_lines]; [reflexivity|]. rewrite rows_cons, IH, feeds_plain; [cbn; lia|].
  apply plain_app; [apply plainb_ok; reflexivity|]. apply plain_app; [apply dec_plain|]. apply plain_app; [apply plainb_ok; reflexivity|exact Hc].
Qed.
Lemma feeds_bytes bs : feeds (debug_bytes bs) = S (List.length bs).
Proof.
  unfold debug_bytes. rewrite !feeds_app, feeds_nl, (feeds_plain "["), (feeds_plain "]") by (apply plainb_ok; reflexivity).
  assert (E : feeds (fold_right (fun b s => "    " ++ hex (Byte.to_N b) ++ "," ++ nl ++ s) "" bs) = List.length bs); [|rewrite E; lia].
  induction bs as [|b bs IH]; [reflexivity|]. cbn [fold_right List.length]. rewrite !feeds_app, IH, feeds_nl, (feeds_plain "    "), (feeds_plain ","), (feeds_plain (hex _)) by (apply hex_plain || (apply plainb_ok; reflexivity)). lia.
Qed.

(** ** Debug output *)
Lemma pad_lines s : plain_lines s -> forall b, plain_lines (pad b s).
Proof.
  unfold plain_lines. induction s as [|c s IH]; intros H b; [constructor|]. inversion H; subst. cbn [pad]. destruct b; cbn [append list_ascii_of_string].
  - do 4 (constructor; [left; apply printableb_ok; reflexivity|]). constructor; auto.
  - constructor; auto.
Qed.
Lemma strings_lines l : Forall plain_lines l -> plain_lines (strings l).
Proof. induction 1 as [|s l H _ IH]; [constructor|]. cbn [strings fold_right]. apply lines_app; assumption. Qed.
Lemma lit_lines s : plainb s = true -> plain_lines s.
Proof. intros H. exact (plain_lines_of _ (plainb_ok s H)). Qed.
Lemma item_lines s : plain_lines s -> plain_lines (pad true (s ++ "," ++ nl)).
Proof. intros H. apply pad_lines. apply lines_app; [exact H|]. apply lines_app; [apply lit_lines; reflexivity|exact nl_lines]. Qed.
Lemma pretty_lines p t : wf p t -> plain_lines (pretty t).
Proof.
  induction t as [s|n fs IH|n fs IH|es IH|n t IH] using dtree_ind'; intros Hw.
  - apply plain_lines_of, atom_plain. exact Hw.
  - apply wf_tuple in Hw as (Hn & _ & Hf). pose proof (plain_lines_of _ (token_plain _ Hn)) as Hn'. destruct fs as [|f fs]; [exact Hn'|]. cbn [pretty].
    apply lines_app; [exact Hn'|]. apply lines_app; [apply lit_lines; reflexivity|]. apply lines_app; [exact nl_lines|]. apply lines_app; [|apply lit_lines; reflexivity].
    apply strings_lines. apply Forall_map. rewrite Forall_forall in *. intros y Hy. apply item_lines. auto.
  - apply wf_struct in Hw as (Hn & _ & Hf). pose proof (plain_lines_of _ (token_plain _ Hn)) as Hn'. destruct fs as [|f fs]; [exact Hn'|]. cbn [pretty].
    apply lines_app; [exact Hn'|]. apply lines_app; [apply lit_lines; reflexivity|]. apply lines_app; [exact nl_lines|]. apply lines_app; [|apply lit_lines; reflexivity].
    apply strings_lines. apply Forall_map. rewrite Forall_forall in *. intros y Hy. apply pad_lines. destruct (Hf y Hy) as [Ht Hy'].
    apply lines_app; [apply plain_lines_of, token_plain; exact Ht|]. apply lines_app; [apply lit_lines; reflexivity|]. apply lines_app; [auto|].
    apply lines_app; [apply lit_lines; reflexivity|exact nl_lines].
  - apply wf_list in Hw. destruct es as [|f fs]; [apply lit_lines; reflexivity|]. cbn [pretty].
    apply lines_app; [apply lit_lines; reflexivity|]. apply lines_app; [exact nl_lines|]. apply lines_app; [|apply lit_lines; reflexivity].
    apply strings_lines. apply Forall_map. rewrite Forall_forall in *. intros y Hy. apply item_lines. auto.
  - destruct Hw as (_ & Hn & Hw). cbn [pretty]. apply lines_app; [apply plain_lines_of, token_plain; exact Hn|]. apply lines_app; [apply lit_lines; reflexivity|exact (IH Hw)].
Qed.
Lemma module_lines (T : Texts) m : readable T -> plain_lines (debug_module m).
Proof. intros HT. exact (pretty_lines true _ (module_wf (p := true) HT m)). Qed.
Lemma error_lines (T : Texts) e : readable T -> plain_lines (debug_error e).
Proof. intros HT. exact (pretty_lines true _ (error_wf HT e)). Qed.
