(** Instructions and expressions.  [parse stack_limit] is
    [Instruction::parse] with the whole stack at its disposal (it returns an
    instruction or one of the delimiters [else] and [end]), [decode_expr_only]
    is [decode_expr] without the data-index flag. *)
From Verif Require Import Model.Prelude Model.Io Model.Ast Model.Errors Model.Integer Model.Helpers Model.Types Model.Instr Model.Sections.
From Verif Require Import Spec.Lang Spec.Types Spec.Instr Spec.Module Spec.Streams Spec.Else.
From Verif Require Import Proofs.Machine Proofs.Parses Proofs.Safe Proofs.GControl Proofs.SafeWalk Proofs.GSections Proofs.Final Proofs.FinalInt Proofs.Components Proofs.Instrs.
From Verif Require Import Properties.Samples.
From Coq Require Import Lia.

(** ** C17 opcodes *)
(** what can come next in a sequence of instructions *)
Inductive Bitem : lang ParseResult :=
| item_instr i bs : Binstr i bs -> Bitem (PR_Instr i) bs
| item_else : Bitem PR_Else [x05]
| item_end : Bitem PR_End [x0b].
Theorem C17_instruction : decodes (fun env => @parse env _ _ (@stack_limit env)) Bitem.
Proof.
  assert (HI : forall pr bs, Gpr pr bs <-> Bitem pr bs) by (intros pr bs; split; [destruct pr; cbn; intros; subst; constructor; assumption|destruct 1; cbn; auto]).
  destruct decodes_item as [H1 H2 H3]. split.
  - intros env bs a rest Hp. destruct (H1 env bs a rest Hp) as (pre & Hb & HG). exists pre. split; [exact Hb|]. apply HI. exact HG.
  - intros env a pre rest HS HG. apply H2; [exact HS|]. apply HI. exact HG.
  - intros env bs HS HN. apply H3; [exact HS|]. intros a pre rest Hb HG. eapply HN; [exact Hb|]. apply HI. exact HG.
Qed.
(** every assigned opcode decodes to the instruction the table assigns to it *)
Theorem C17_assigned env b (X : lang instr) i bs rest : sufficient env (length (b :: bs ++ rest)) -> In (val b, X) ops -> X i bs ->
  @parse env _ _ (@stack_limit env) (b :: bs ++ rest) = (Ok (PR_Instr i), rest).
Proof. intros HS HI HX. apply (decodes_instr env i (b :: bs) rest HS). econstructor; eassumption. Qed.
Theorem C17_assigned_fb env n (X : lang instr) i bs1 bs2 rest : sufficient env (length (xfb :: (bs1 ++ bs2) ++ rest)) -> Bu32 n bs1 -> In (n, X) ops_fb -> X i bs2 ->
  @parse env _ _ (@stack_limit env) (xfb :: (bs1 ++ bs2) ++ rest) = (Ok (PR_Instr i), rest).
Proof. intros HS Hn HI HX. apply (decodes_instr env i (xfb :: bs1 ++ bs2) rest HS). econstructor; eassumption. Qed.
Theorem C17_assigned_fc env n (X : lang instr) i bs1 bs2 rest : sufficient env (length (xfc :: (bs1 ++ bs2) ++ rest)) -> Bu32 n bs1 -> In (n, X) ops_fc -> X i bs2 ->
  @parse env _ _ (@stack_limit env) (xfc :: (bs1 ++ bs2) ++ rest) = (Ok (PR_Instr i), rest).
Proof. intros HS Hn HI HX. apply (decodes_instr env i (xfc :: bs1 ++ bs2) rest HS). econstructor; eassumption. Qed.
Theorem C17_assigned_fd env n (X : lang instr) i bs1 bs2 rest : sufficient env (length (xfd :: (bs1 ++ bs2) ++ rest)) -> Bu32 n bs1 -> In (n, X) ops_fd -> X i bs2 ->
  @parse env _ _ (@stack_limit env) (xfd :: (bs1 ++ bs2) ++ rest) = (Ok (PR_Instr i), rest).
Proof. intros HS Hn HI HX. apply (decodes_instr env i (xfd :: bs1 ++ bs2) rest HS). econstructor; eassumption. Qed.
(** every unassigned one is rejected by name, right after having been read *)
Theorem C17_unassigned env b rest : 0 < @stack_limit env -> ~ In (val b) (map fst ops) -> ~ In b [x02; x03; x04; x05; x0b; x1f; xfb; xfc; xfd] ->
  @parse env _ _ (@stack_limit env) (b :: rest) = (Err (PE_InvalidOpcode b), rest).
Proof. intros Hs H1 H2. destruct (@stack_limit env); [lia|]. rewrite parse_eq. exact (bad_opcode env _ b rest H1 H2). Qed.
Theorem C17_unassigned_fb env n bs rest : 0 < @stack_limit env -> Bu32 n bs -> ~ In n (map fst ops_fb) ->
  @parse env _ _ (@stack_limit env) (xfb :: bs ++ rest) = (Err (PE_InvalidMarkerByteAfterFB n), rest).
Proof. intros Hs H1 H2. destruct (@stack_limit env); [lia|]. rewrite parse_eq. exact (bind_err _ _ _ _ _ (bad_fb n bs rest H1 H2)). Qed.
Theorem C17_unassigned_fc env n bs rest : 0 < @stack_limit env -> Bu32 n bs -> ~ In n (map fst ops_fc) ->
  @parse env _ _ (@stack_limit env) (xfc :: bs ++ rest) = (Err (PE_InvalidMarkerByteAfterFC n), rest).
Proof. intros Hs H1 H2. destruct (@stack_limit env); [lia|]. rewrite parse_eq. exact (bind_err _ _ _ _ _ (bad_fc n bs rest H1 H2)). Qed.
Theorem C17_unassigned_fd env n bs rest : 0 < @stack_limit env -> Bu32 n bs -> ~ In n (map fst ops_fd) ->
  @parse env _ _ (@stack_limit env) (xfd :: bs ++ rest) = (Err (PE_Vector (Vec_InvalidOpcode n)), rest).
Proof. intros Hs H1 H2. destruct (@stack_limit env); [lia|]. rewrite parse_eq. exact (bind_err _ _ _ _ _ (bad_fd n bs rest H1 H2)). Qed.
(** the tables assign each number once, and there are 450 numbers *)
Fixpoint distinct (l : list N) : bool := match l with [] => true | n :: l' => negb (existsb (N.eqb n) l') && distinct l' end.
Lemma distinct_NoDup l : distinct l = true -> NoDup l.
Proof. induction l as [|n l IH]; cbn; intros Hd; constructor; apply andb_prop in Hd as [H1 H2]; [apply existsb_In, Bool.negb_true_iff, H1|auto]. Qed.
Theorem C17_tables : NoDup (map fst ops) /\ NoDup (map fst ops_fb) /\ NoDup (map fst ops_fc) /\ NoDup (map fst ops_fd).
Proof. repeat split; apply distinct_NoDup; vm_compute; reflexivity. Qed.
Example C17_ex : In (0x6A%N, imm0 I_I32Add) ops /\ In (186%N, imm0 I_I32x4DotI16x8S) ops_fd /\ ~ In 0x27%N (map fst ops) /\ ~ In 154%N (map fst ops_fd) /\ ~ In 276%N (map fst ops_fd).
Proof. repeat split; try (apply existsb_In; vm_compute; reflexivity); eapply GInstr.assocN_In; reflexivity. Qed.

(** ** C18 immediates: for all encodings of all immediates, the bytes in the
    order of the specification give the operands in the order of the crate's
    AST (table/memory before type/elem/data index: src/decode/instructions.rs
    and the [I_*] constructors) *)
Definition decodes_to (bs : list byte) (i : instr) : Prop := forall env rest, sufficient env (length (bs ++ rest)) ->
  @parse env _ _ (@stack_limit env) (bs ++ rest) = (Ok (PR_Instr i), rest).
Lemma to_word i bs : Binstr i bs -> decodes_to bs i.
Proof. intros HB env rest HS. apply decodes_instr; assumption. Qed.
Ltac tbl := eapply GInstr.assocN_In; reflexivity.
Ltac two f a b := intros; apply to_word; first
  [ eapply BI_op; [tbl|]; exact (imm2_intro f _ _ a b _ _ ltac:(eassumption) ltac:(eassumption))
  | first [eapply BI_fb|eapply BI_fc|eapply BI_fd]; [eassumption|tbl|exact (imm2_intro f _ _ a b _ _ ltac:(eassumption) ltac:(eassumption))] ].
Theorem C18_call_indirect (typeidx : N) (tableidx : N) b1 b2 : Bu32 typeidx b1 -> Bu32 tableidx b2 -> decodes_to (x11 :: b1 ++ b2) (I_CallIndirect tableidx typeidx).
Proof. two (fun y x => I_CallIndirect x y) typeidx tableidx. Qed.
Theorem C18_return_call_indirect (typeidx : N) (tableidx : N) b1 b2 : Bu32 typeidx b1 -> Bu32 tableidx b2 -> decodes_to (x13 :: b1 ++ b2) (I_ReturnCallIndirect tableidx typeidx).
Proof. two (fun y x => I_ReturnCallIndirect x y) typeidx tableidx. Qed.
Theorem C18_br_table (labels : list N) (dflt : N) b1 b2 : Blist Bu32 labels b1 -> Bu32 dflt b2 -> decodes_to (x0e :: b1 ++ b2) (I_BrTable labels dflt).
Proof. two I_BrTable labels dflt. Qed.
Theorem C18_memory_init (dataidx : N) (memidx : N) bn b1 b2 : Bu32 8%N bn -> Bu32 dataidx b1 -> Bu32 memidx b2 -> decodes_to (xfc :: bn ++ b1 ++ b2) (I_MemoryInit memidx dataidx).
Proof. two (fun y x => I_MemoryInit x y) dataidx memidx. Qed.
Theorem C18_memory_copy (dst : N) (src : N) bn b1 b2 : Bu32 10%N bn -> Bu32 dst b1 -> Bu32 src b2 -> decodes_to (xfc :: bn ++ b1 ++ b2) (I_MemoryCopy dst src).
Proof. two I_MemoryCopy dst src. Qed.
Theorem C18_table_init (elemidx : N) (tableidx : N) bn b1 b2 : Bu32 12%N bn -> Bu32 elemidx b1 -> Bu32 tableidx b2 -> decodes_to (xfc :: bn ++ b1 ++ b2) (I_TableInit tableidx elemidx).
Proof. two (fun y x => I_TableInit x y) elemidx tableidx. Qed.
Theorem C18_table_copy (dst : N) (src : N) bn b1 b2 : Bu32 14%N bn -> Bu32 dst b1 -> Bu32 src b2 -> decodes_to (xfc :: bn ++ b1 ++ b2) (I_TableCopy dst src).
Proof. two I_TableCopy dst src. Qed.
Theorem C18_struct_get (typeidx : N) (field : N) bn b1 b2 : Bu32 2%N bn -> Bu32 typeidx b1 -> Bu32 field b2 -> decodes_to (xfb :: bn ++ b1 ++ b2) (I_StructGet typeidx field).
Proof. two I_StructGet typeidx field. Qed.
Theorem C18_struct_get_s (typeidx : N) (field : N) bn b1 b2 : Bu32 3%N bn -> Bu32 typeidx b1 -> Bu32 field b2 -> decodes_to (xfb :: bn ++ b1 ++ b2) (I_StructGetS typeidx field).
Proof. two I_StructGetS typeidx field. Qed.
Theorem C18_struct_get_u (typeidx : N) (field : N) bn b1 b2 : Bu32 4%N bn -> Bu32 typeidx b1 -> Bu32 field b2 -> decodes_to (xfb :: bn ++ b1 ++ b2) (I_StructGetU typeidx field).
Proof. two I_StructGetU typeidx field. Qed.
Theorem C18_struct_set (typeidx : N) (field : N) bn b1 b2 : Bu32 5%N bn -> Bu32 typeidx b1 -> Bu32 field b2 -> decodes_to (xfb :: bn ++ b1 ++ b2) (I_StructSet typeidx field).
Proof. two I_StructSet typeidx field. Qed.
Theorem C18_array_new_fixed (typeidx : N) (len : N) bn b1 b2 : Bu32 8%N bn -> Bu32 typeidx b1 -> Bu32 len b2 -> decodes_to (xfb :: bn ++ b1 ++ b2) (I_ArrayNewFixed typeidx len).
Proof. two I_ArrayNewFixed typeidx len. Qed.
Theorem C18_array_new_data (typeidx : N) (dataidx : N) bn b1 b2 : Bu32 9%N bn -> Bu32 typeidx b1 -> Bu32 dataidx b2 -> decodes_to (xfb :: bn ++ b1 ++ b2) (I_ArrayNewData typeidx dataidx).
Proof. two I_ArrayNewData typeidx dataidx. Qed.
Theorem C18_array_new_elem (typeidx : N) (elemidx : N) bn b1 b2 : Bu32 10%N bn -> Bu32 typeidx b1 -> Bu32 elemidx b2 -> decodes_to (xfb :: bn ++ b1 ++ b2) (I_ArrayNewElem typeidx elemidx).
Proof. two I_ArrayNewElem typeidx elemidx. Qed.
Theorem C18_array_copy (dst : N) (src : N) bn b1 b2 : Bu32 17%N bn -> Bu32 dst b1 -> Bu32 src b2 -> decodes_to (xfb :: bn ++ b1 ++ b2) (I_ArrayCopy dst src).
Proof. two I_ArrayCopy dst src. Qed.
Theorem C18_array_init_data (typeidx : N) (dataidx : N) bn b1 b2 : Bu32 18%N bn -> Bu32 typeidx b1 -> Bu32 dataidx b2 -> decodes_to (xfb :: bn ++ b1 ++ b2) (I_ArrayInitData typeidx dataidx).
Proof. two I_ArrayInitData typeidx dataidx. Qed.
Theorem C18_array_init_elem (typeidx : N) (elemidx : N) bn b1 b2 : Bu32 19%N bn -> Bu32 typeidx b1 -> Bu32 elemidx b2 -> decodes_to (xfb :: bn ++ b1 ++ b2) (I_ArrayInitElem typeidx elemidx).
Proof. two I_ArrayInitElem typeidx elemidx. Qed.
Theorem C18_v128_load8_lane (arg : Memarg) (lane : byte) bn b1 b2 : Bu32 84%N bn -> Bmemarg arg b1 -> Bbyte lane b2 -> decodes_to (xfd :: bn ++ b1 ++ b2) (I_V128Load8Lane arg lane).
Proof. two I_V128Load8Lane arg lane. Qed.
Theorem C18_v128_load16_lane (arg : Memarg) (lane : byte) bn b1 b2 : Bu32 85%N bn -> Bmemarg arg b1 -> Bbyte lane b2 -> decodes_to (xfd :: bn ++ b1 ++ b2) (I_V128Load16Lane arg lane).
Proof. two I_V128Load16Lane arg lane. Qed.
Theorem C18_v128_load32_lane (arg : Memarg) (lane : byte) bn b1 b2 : Bu32 86%N bn -> Bmemarg arg b1 -> Bbyte lane b2 -> decodes_to (xfd :: bn ++ b1 ++ b2) (I_V128Load32Lane arg lane).
Proof. two I_V128Load32Lane arg lane. Qed.
Theorem C18_v128_load64_lane (arg : Memarg) (lane : byte) bn b1 b2 : Bu32 87%N bn -> Bmemarg arg b1 -> Bbyte lane b2 -> decodes_to (xfd :: bn ++ b1 ++ b2) (I_V128Load64Lane arg lane).
Proof. two I_V128Load64Lane arg lane. Qed.
Theorem C18_v128_store8_lane (arg : Memarg) (lane : byte) bn b1 b2 : Bu32 88%N bn -> Bmemarg arg b1 -> Bbyte lane b2 -> decodes_to (xfd :: bn ++ b1 ++ b2) (I_V128Store8Lane arg lane).
Proof. two I_V128Store8Lane arg lane. Qed.
Theorem C18_v128_store16_lane (arg : Memarg) (lane : byte) bn b1 b2 : Bu32 89%N bn -> Bmemarg arg b1 -> Bbyte lane b2 -> decodes_to (xfd :: bn ++ b1 ++ b2) (I_V128Store16Lane arg lane).
Proof. two I_V128Store16Lane arg lane. Qed.
Theorem C18_v128_store32_lane (arg : Memarg) (lane : byte) bn b1 b2 : Bu32 90%N bn -> Bmemarg arg b1 -> Bbyte lane b2 -> decodes_to (xfd :: bn ++ b1 ++ b2) (I_V128Store32Lane arg lane).
Proof. two I_V128Store32Lane arg lane. Qed.
Theorem C18_v128_store64_lane (arg : Memarg) (lane : byte) bn b1 b2 : Bu32 91%N bn -> Bmemarg arg b1 -> Bbyte lane b2 -> decodes_to (xfd :: bn ++ b1 ++ b2) (I_V128Store64Lane arg lane).
Proof. two I_V128Store64Lane arg lane. Qed.
Theorem C18_br_on_cast n1 n2 label h1 h2 bn b1 b2 b3 b4 : Bu32 24%N bn -> Bcastop (n1, n2) b1 -> Bu32 label b2 -> Bheaptype h1 b3 -> Bheaptype h2 b4 ->
  decodes_to (xfb :: bn ++ b1 ++ b2 ++ b3 ++ b4) (I_BrOnCast label (mkRefType n1 h1) (mkRefType n2 h2)).
Proof. intros. apply to_word. eapply BI_fb; [eassumption|tbl|]. apply (Bbr_on_cast_intro I_BrOnCast); assumption. Qed.
Theorem C18_br_on_cast_fail n1 n2 label h1 h2 bn b1 b2 b3 b4 : Bu32 25%N bn -> Bcastop (n1, n2) b1 -> Bu32 label b2 -> Bheaptype h1 b3 -> Bheaptype h2 b4 ->
  decodes_to (xfb :: bn ++ b1 ++ b2 ++ b3 ++ b4) (I_BrOnCastFail label (mkRefType n1 h1) (mkRefType n2 h2)).
Proof. intros. apply to_word. eapply BI_fb; [eassumption|tbl|]. apply (Bbr_on_cast_intro I_BrOnCastFail); assumption. Qed.
Theorem C18_try_table bt cs is b1 b2 b3 : Bblocktype bt b1 -> Blist Bcatch cs b2 -> Binstrs is b3 ->
  decodes_to (x1f :: b1 ++ b2 ++ b3 ++ [x0b]) (I_TryTable bt cs is).
Proof. intros. apply to_word. constructor; assumption. Qed.
Theorem C18_if_else bt is1 is2 b1 b2 b3 : Bblocktype bt b1 -> Binstrs is1 b2 -> Binstrs is2 b3 ->
  decodes_to (x04 :: b1 ++ b2 ++ [x05] ++ b3 ++ [x0b]) (I_If bt is1 (Some is2)).
Proof. intros. apply to_word. constructor; assumption. Qed.
Theorem C18_catch tag label b1 b2 rest : Bu32 tag b1 -> Bu32 label b2 -> decode_catch (x00 :: b1 ++ b2 ++ rest) = (Ok (C_Catch tag label), rest).
Proof.
  intros H1 H2. replace (x00 :: b1 ++ b2 ++ rest) with ((x00 :: b1 ++ b2) ++ rest) by (cbn; rewrite <- app_assoc; reflexivity).
  apply (decodes_word _ _ _ _ rest (decodes_of _ _ _ _ (fun _ => GInstr.parses_catch) (fun _ => safe_catch _))). constructor; assumption.
Qed.
Example C18_ex : decodes_to [x11; x07; x02] (I_CallIndirect 2%N 7%N) /\ decodes_to [xfc; x88; x00; x05; x03] (I_MemoryInit 3%N 5%N).
Proof.
  assert (U : forall b n, val b = n -> (n < 2 ^ 7)%N -> Bu32 n [b]) by (intros b n <- Hn; apply (Bu_last 32); [exact Hn|eapply N.lt_trans; [exact Hn|reflexivity]]).
  split; [apply (C18_call_indirect 7%N 2%N [x07] [x02]); apply U; reflexivity|].
  apply (C18_memory_init 5%N 3%N [x88; x00] [x05] [x03]); [|apply U; reflexivity..].
  apply (Bu_more 32 x88 0 [x00]); [vm_compute; congruence|reflexivity|]. apply (Bu_last 25 x00); reflexivity.
Qed.

(** ** C11 the instructions that carry raw bits: every bit pattern is accepted, and kept *)
Theorem C11_f32_const (bs : list byte) : length bs = 4 -> decodes_to (x43 :: bs) (I_F32Const (le_value bs)).
Proof. intros HL. apply to_word. eapply BI_op; [tbl|]. apply (imm1_intro I_F32Const). split; [exact HL|reflexivity]. Qed.
Theorem C11_f64_const (bs : list byte) : length bs = 8 -> decodes_to (x44 :: bs) (I_F64Const (le_value bs)).
Proof. intros HL. apply to_word. eapply BI_op; [tbl|]. apply (imm1_intro I_F64Const). split; [exact HL|reflexivity]. Qed.
Theorem C11_v128_const (bn bs : list byte) : Bu32 12%N bn -> length bs = 16 -> decodes_to (xfd :: bn ++ bs) (I_V128Const bs).
Proof. intros HN HL. apply to_word. eapply BI_fd; [exact HN|tbl|]. apply (imm1_intro I_V128Const). split; [reflexivity|exact HL]. Qed.
Theorem C11_shuffle (bn bs : list byte) : Bu32 13%N bn -> length bs = 16 -> decodes_to (xfd :: bn ++ bs) (I_I8x16Shuffle bs).
Proof. intros HN HL. apply to_word. eapply BI_fd; [exact HN|tbl|]. apply (imm1_intro I_I8x16Shuffle). split; [reflexivity|exact HL]. Qed.
Example C11_shuffle_ex : decodes_to (xfd :: [x8d; x00] ++ repeat xff 16) (I_I8x16Shuffle (repeat xff 16)) /\ decodes_to [x44; x00; x00; x00; x00; x00; x00; x00; x80] (I_F64Const (2 ^ 63)%N).
Proof.
  split; [|apply (C11_f64_const [x00; x00; x00; x00; x00; x00; x00; x80]); reflexivity]. apply C11_shuffle; [|reflexivity].
  apply (Bu_more 32 x8d 0 [x00]); [vm_compute; congruence|reflexivity|]. apply (Bu_last 25 x00); reflexivity.
Qed.

(** ** C19 structured control *)
Theorem C19_expr : decodes (fun env => @decode_expr_only env _ _) Bexpr.
Proof. eapply decodes_of; intros env; [apply parses_expr|apply safe_expr_only]. Qed.
Theorem C19_unique e1 e2 b1 b2 rest1 rest2 : b1 ++ rest1 = b2 ++ rest2 -> Bexpr e1 b1 -> Bexpr e2 b2 -> e1 = e2 /\ b1 = b2.
Proof. exact (decodes_prefix_free _ _ C19_expr e1 e2 b1 b2 rest1 rest2). Qed.
(** a misplaced [else] is rejected as such, at any depth ... *)
Theorem C19_else_outside env is w rest : sufficient env (length (w ++ x05 :: rest)) -> Binstrs is w ->
  @decode_expr env _ _ (w ++ x05 :: rest) = (Err Expr_UnexpectedElse, rest).
Proof. intros [Ha HS] HI. apply (expr_else_top is); [exact HI|]. unfold enough. lia. Qed.
Theorem C19_else_inside env is b w rest : sufficient env (length (b ++ w ++ x05 :: rest)) -> Binstrs is b -> unfinished w ->
  @decode_expr env _ _ (b ++ w ++ x05 :: rest) = (Err (Expr_ParseInstruction (PE_Control Ctl_UnexpectedElse)), rest).
Proof. intros [Ha HS] HI HW. apply (expr_else_nested is); [exact HI|exact HW|]. unfold enough. lia. Qed.
(** ... and nothing else is *)
Theorem C19_only_outside env bs rest : @decode_expr env _ _ bs = (Err Expr_UnexpectedElse, rest) -> exists is w, bs = w ++ x05 :: rest /\ Binstrs is w.
Proof. exact (proj1 (expr_only_else _ _ _ bs rest)). Qed.
Theorem C19_only_inside env bs rest : @decode_expr env _ _ bs = (Err (Expr_ParseInstruction (PE_Control Ctl_UnexpectedElse)), rest) ->
  exists is b w, bs = b ++ w ++ x05 :: rest /\ Binstrs is b /\ unfinished w.
Proof. exact (proj2 (expr_only_else _ _ _ bs rest)). Qed.
(** block { nop  loop { *else* *)
Example C19_ex : unfinished [x02; x40; x01; x03; x40].
Proof.
  apply (unf_block BT_Empty [x40] [x01; x03; x40]); [constructor|]. apply (open_inside false [I_Nop] [x01] [x03; x40]).
  - apply (BIs_cons _ [] [x01] []); [|constructor]. eapply (BI_op x01); [tbl|]. split; reflexivity.
  - apply (unf_loop BT_Empty [x40] []); [constructor|]. apply (open_here []). constructor.
Qed.
Print Assumptions C11_f32_const.
Print Assumptions C11_f64_const.
Print Assumptions C11_v128_const.
Print Assumptions C11_shuffle.
