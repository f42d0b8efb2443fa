(** The errors of section entries and of section contents are their faults. *)
From Verif Require Import Model.Prelude Model.Io Model.Ast Model.Errors Model.Integer Model.Helpers Model.Types Model.Instr Model.Sections Model.Module.
From Verif Require Import Proofs.Machine Proofs.Reads Proofs.Parses Proofs.Leb Proofs.Loop Proofs.GHelpers Proofs.GTypes Proofs.GInstr Proofs.GPrefix Proofs.GControl Proofs.GSections Proofs.Utf8 Proofs.FinalInt Proofs.Blames Proofs.FTypes Proofs.FInstr Proofs.FControl Proofs.Components.
From Verif Require Import Spec.Lang Spec.Types Spec.Instr Spec.Module Spec.Streams Spec.Leb Spec.Faults.
From Coq Require Import Lia ZifyBool ZifyNat ZifyN.

(** lists whose grammar matters only up to what they consume *)
Lemma Fnth_map {A A' E} (X : lang A) (X' : lang A') (F : faulty E) n bs stop e :
  (forall x w, X x w -> exists x', X' x' w) -> Fnth X F n bs stop e -> Fnth X' F n bs stop e.
Proof.
  intros HX (xs & w & rest & e' & -> & Hs & Hl & HF & ->).
  assert (Hs' : exists xs', Bseq X' xs' w /\ length xs' = length xs).
  { clear -Hs HX. induction Hs as [|x xs w1 w2 Hx Hs (xs' & IH & Hl)]; [exists []; split; [constructor|reflexivity]|].
    destruct (HX _ _ Hx) as (x' & Hx'). exists (x' :: xs'). split; [constructor; assumption|]. cbn. lia. }
  destruct Hs' as (xs' & Hs' & Hlen). exists xs', w, rest, e'. rewrite Hlen. auto.
Qed.
Lemma Flist_map {A A' E} (X : lang A) (X' : lang A') (F : faulty E) bs stop e :
  (forall x w, X x w -> exists x', X' x' w) -> Flist X F bs stop e -> Flist X' F bs stop e.
Proof.
  intros HX [He|(n & w & rest & -> & Hn & HF)]; [left; exact He|]. right. exists n, w, rest. split; [reflexivity|]. split; [assumption|].
  eapply Fnth_map; eassumption.
Qed.

Section Entries.
  Context {env : Env}.
  Lemma blames_expr_only {R C} `{HL : Lawful R C} : Blames (decode_expr_only : M R _ _) Fexpr.
  Proof. apply blames_pure; [apply blames_expr|]. intros [? ?]. discriminate. Qed.
  Lemma blames_import {R C} `{HL : Lawful R C} : Blames (parse_import : M R _ _) Fimport.
  Proof.
    apply blames_field; [apply parses_name|apply blames_name|]. intros n1 _.
    apply blames_field; [apply parses_name|apply blames_name|]. intros n2 _. apply blames_last, blames_externtype.
  Qed.
  Lemma blames_table {R C} `{HL : Lawful R C} : Blames (decode_table : M R _ _) Ftable.
  Proof.
    unfold decode_table. eapply blames_ext.
    { apply blames_byte with (K := fun b bs stop e => Ftable (b :: bs) stop e). intros b. unfold Ftable.
      destruct b; byte_cmp; try (apply (blames_chain _ _ (at_ Tbl_DecodeTableType Ftabletype)), blames_last, blames_tabletype).
      apply blames_byte. intros b. destruct b; byte_cmp; try apply blames_throw.
      apply blames_field; [apply parses_tabletype|apply blames_tabletype|]. intros tt _. apply blames_last, blames_expr_only. }
    intros [|b bs] stop e; reflexivity.
  Qed.
  Context {R C : Type} `{HL : Lawful R C}.
  Lemma blames_global : Blames (parse_global : M R _ _) Fglobal.
  Proof. apply blames_field; [apply parses_globaltype|apply blames_globaltype|]. intros t _. apply blames_last, blames_expr_only. Qed.
  Lemma blames_export : Blames (parse_export : M R _ _) Fexport.
  Proof.
    apply blames_field; [apply parses_name|apply blames_name|]. intros nm _. apply blames_byte. intros b.
    apply blames_field; [apply parses_u32|apply blames_u32|]. intros x _.
    destruct b; unfold externidx_from; cbn [switch pmatch]; byte_cmp; first [apply blames_ret|apply blames_throw].
  Qed.
  Lemma blames_elemkind : Blames (parse_elemkind : M R _ _) Felemkind.
  Proof. apply blames_byte. intros b. destruct b; byte_cmp; first [apply blames_ret|apply blames_throw]. Qed.
  Lemma blames_funcs {A} (k : _ -> A) : Blames (y <- map_err El_DecodeFuncIdxVector (decode_list decode_funcidx) ;; ret (k y) : M R _ _)
    (at_ El_DecodeFuncIdxVector (Flist Bidx (at_ FuncIdxE Fu32))).
  Proof. apply blames_last, blames_list; [apply parses_funcidx|apply blames_funcidx]. Qed.
  Lemma blames_exprs {A} (k : _ -> A) : Blames (y <- map_err El_DecodeInit (decode_list decode_expr_only) ;; ret (k y) : M R _ _)
    (at_ El_DecodeInit (Flist Bexpr Fexpr)).
  Proof. apply blames_last, blames_list; [apply parses_expr|apply blames_expr_only]. Qed.
  Lemma blames_elem : Blames (parse_elem : M R _ _) Felem.
  Proof.
    unfold parse_elem, Felem. cbv zeta. apply blames_field; [apply parses_u32|apply blames_u32|]. intros n _.
    destruct (N.lt_ge_cases n 8) as [Hn|Hn].
    - revert n Hn. apply (below_all _ 8). cbn [below app N.of_nat Pos.of_succ_nat Pos.succ].
      repeat (apply Forall_cons; [red_arms; unfold decode_tableidx;
        repeat first [apply (blames_funcs (fun _ => _)) | apply (blames_exprs (fun _ => _))
          | apply blames_field_idx; [reflexivity|intros ?]
          | apply blames_fld; [reflexivity|apply parses_expr|apply blames_expr_only|intros ?]
          | apply blames_fld; [reflexivity|apply parses_elemkind|apply blames_elemkind|intros ?]
          | apply blames_fld; [reflexivity|apply parses_reftype|apply blames_reftype|intros ?] ]|]); apply Forall_nil.
    - cbn [switch pmatch].
      repeat match goal with |- context [N.eqb n ?k] => destruct (N.eqb_spec n k) as [?|_]; [exfalso; lia|] end.
      destruct n as [|p]; [exfalso; lia|]. do 3 (destruct p as [p|p|]; try apply blames_throw; try (exfalso; lia)).
  Qed.
  Lemma blames_data : Blames (parse_data : M R _ _) Fdata.
  Proof.
    unfold parse_data, Fdata. cbv zeta. apply blames_field; [apply parses_u32|apply blames_u32|]. intros n _.
    destruct (N.lt_ge_cases n 3) as [Hn|Hn].
    - revert n Hn. apply (below_all _ 3). cbn [below app N.of_nat Pos.of_succ_nat Pos.succ].
      repeat (apply Forall_cons; [red_arms; unfold decode_memidx;
        repeat first [apply blames_last, blames_byte_vector
          | apply blames_field_idx; [reflexivity|intros ?]
          | apply blames_fld; [reflexivity|apply parses_expr|apply blames_expr_only|intros ?] ]|]); apply Forall_nil.
    - cbn [switch pmatch].
      repeat match goal with |- context [N.eqb n ?k] => destruct (N.eqb_spec n k) as [?|_]; [exfalso; lia|] end.
      destruct n as [|p]; [exfalso; lia|]. do 2 (destruct p as [p|p|]; try apply blames_throw; try (exfalso; lia)).
  Qed.

  (** ** locals *)
  Lemma blames_local st : Blames (parse_code_local (2 ^ 32 - 1)%N st : M R _ _)
    (fun bs stop e => (st < 2 ^ 32)%N /\ Flocals st bs stop e \/ (2 ^ 32 <= st)%N /\ field Loc_DecodeLocalsCount Fu32 Bu32 (fun n =>
       if (st + n <? 2 ^ 64)%N then wrong (Loc_LocalsCountOutOfBound (2 ^ 32 - 1) (st + n))%N else nothing) bs stop e).
  Proof.
    unfold parse_code_local. eapply blames_ext.
    { apply blames_field with (K := fun n => if (st + n <? 2 ^ 64)%N then (if (st + n <? 2 ^ 32)%N then at_ Loc_DecodeLocalValType Fvaltype
          else wrong (Loc_LocalsCountOutOfBound (2 ^ 32 - 1) (st + n))%N) else nothing); [apply parses_u32|apply blames_u32|]. intros n _.
      unfold add_u64. destruct (st + n <? 2 ^ 64)%N; [|apply blames_panic]. apply blames_bind_ret.
      destruct (N.ltb_spec (2 ^ 32 - 1) (st + n)); destruct (N.ltb_spec (st + n) (2 ^ 32)); try (exfalso; lia).
      - apply blames_throw.
      - apply blames_last, blames_valtype. }
    intros bs stop e. unfold Flocals, field, after_. destruct (N.lt_ge_cases st (2 ^ 32)) as [Hst|Hst].
    - split.
      + intros HF. left. split; [assumption|]. destruct HF as [HF|(n & pre & rest & -> & Hn & HF)]; [left; exact HF|right]. exists n, pre, rest.
        split; [reflexivity|]. split; [assumption|]. assert (Hl := Bu32_lt _ _ Hn). destruct (N.ltb_spec (st + n) (2 ^ 64)); [exact HF|exfalso; lia].
      + intros [[_ HF]|[? _]]; [|exfalso; lia]. destruct HF as [HF|(n & pre & rest & -> & Hn & HF)]; [left; exact HF|right]. exists n, pre, rest.
        split; [reflexivity|]. split; [assumption|]. assert (Hl := Bu32_lt _ _ Hn). destruct (N.ltb_spec (st + n) (2 ^ 64)); [exact HF|exfalso; lia].
    - split.
      + intros HF. right. split; [assumption|]. destruct HF as [HF|(n & pre & rest & -> & Hn & HF)]; [left; exact HF|right]. exists n, pre, rest.
        split; [reflexivity|]. split; [assumption|]. destruct (st + n <? 2 ^ 64)%N; [|exact HF]. destruct (N.ltb_spec (st + n) (2 ^ 32)); [exfalso; lia|exact HF].
      + intros [[? _]|[_ HF]]; [exfalso; lia|]. destruct HF as [HF|(n & pre & rest & -> & Hn & HF)]; [left; exact HF|right]. exists n, pre, rest.
        split; [reflexivity|]. split; [assumption|]. destruct (st + n <? 2 ^ 64)%N; [|exact HF]. destruct (N.ltb_spec (st + n) (2 ^ 32)); [exfalso; lia|exact HF].
  Qed.
  Lemma blames_locals : Blames (decode_list_st (parse_code_local (2 ^ 32 - 1)%N) 0%N : M R _ _) Flocals_list.
  Proof.
    eapply blames_ext; [apply blames_list_st; [intros st; apply parses_local|intros st; apply blames_local]|].
    intros bs stop e. unfold Flocals_list, field, after_, Fnth_st. split; (intros [HF|(n & pre & rest & -> & Hn & HF)]; [left; exact HF|right]);
      exists n, pre, rest; (split; [reflexivity|]); (split; [assumption|]).
    - destruct HF as (ls & w & rest' & st' & e' & -> & Hs & Hl & He & ->). apply Bseq_st_locals in Hs as (Hs & -> & Hlt); [|lia].
      destruct He as [[_ He]|[? _]]; [|exfalso; lia].
      eexists _, w, rest', e'. split; [reflexivity|]. split; [apply seq_locals; eassumption|]. rewrite map_length. split; [lia|].
      unfold count_locals. rewrite <- flat_map_concat_map. fold (expand_locals ls). rewrite <- total_expand. split; [assumption|]. split; [exact He|]. f_equal; lia.
    - destruct HF as (locs & w & rest' & e' & -> & Hs & Hl & Hlt & He & ->). apply seq_locals_inv in Hs as (ls & Hs & ->).
      rewrite map_length in *. unfold count_locals in *. rewrite <- flat_map_concat_map in *. fold (expand_locals ls) in *. rewrite <- total_expand in *.
      exists ls, w, rest', (total_locals ls), e'. split; [reflexivity|]. split; [apply Bseq_st_locals; [lia|]; split; [assumption|]; split; [reflexivity|assumption]|].
      split; [lia|]. split; [left; split; [assumption|exact He]|]. f_equal; lia.
  Qed.
End Entries.

Section Code.
  Context {env : Env} {R C : Type} `{HL : Lawful R C}.
  (** what stands between the fences *)
  Definition inside {R'} `{Reader R'} : M R' DecodeCodeError (list Local_ * (Expr * bool)) :=
    locals <- map_err Code_DecodeLocalsVector (decode_list_st (parse_code_local (2 ^ 32 - 1)%N) 0%N) ;;
    e <- map_err Code_DecodeFunctionBody decode_expr ;;
    ret (locals, e).
  Lemma blames_inside {R' C'} `{Lawful R' C'} : Blames (inside : M R' _ _) Ffunc.
  Proof.
    unfold inside. eapply blames_ext.
    { apply blames_field; [apply parses_locals|apply blames_locals|]. intros ls _. apply blames_last, blames_expr. }
    intros bs stop e. unfold Ffunc, field, after_. split; (intros [HF|(x & pre & rest & -> & Hx & HF)]; [left; exact HF|right]).
    - destruct Hx as [Hl Ht]. destruct Hl as [ls b1 b2 Hn Hs]. eexists _, (b1 ++ b2), rest. split; [reflexivity|]. split; [|exact HF]. split.
      + constructor; [rewrite map_length; eassumption|apply seq_locals; eassumption].
      + unfold count_locals. rewrite <- flat_map_concat_map. fold (expand_locals ls). rewrite <- total_expand. assumption.
    - destruct Hx as [Hl Ht]. destruct Hl as [locs b1 b2 Hn Hs]. apply seq_locals_inv in Hs as (ls & Hs & ->).
      exists ls, (b1 ++ b2), rest. split; [reflexivity|]. split; [|exact HF]. split.
      + constructor; [rewrite map_length in Hn; exact Hn|assumption].
      + unfold count_locals in Ht. rewrite <- flat_map_concat_map in Ht. fold (expand_locals ls) in Ht. rewrite <- total_expand in Ht. assumption.
  Qed.
  Definition Gfunc : lang (list Local_ * (Expr * bool)) := fun x bs => exists b1 b2, bs = b1 ++ b2 /\
    (Blist Glocal (fst x) b1 /\ (total_locals (fst x) < 2 ^ 32)%N) /\ Gexpr (snd x) b2.
  Lemma parses_inside {R' C'} `{Lawful R' C'} : Parses (inside : M R' _ _) Gfunc.
  Proof.
    unfold inside. eapply parses_ext.
    { parses_step; [apply parses_map_err, parses_locals|]. parses_step; [apply parses_map_err, parses_decode_expr|]. apply parses_ret. }
    intros [ls ed] bs. unfold Gfunc. cbn [fst snd]. split.
    - intros (ls0 & b1 & b2 & -> & HL1 & HK). apply g_bind_ret in HK as (ed0 & [= -> ->] & He). eauto.
    - intros (b1 & b2 & -> & HL1 & He). exists ls, b1, b2. split; [reflexivity|]. split; [assumption|]. apply g_bind_ret. eauto.
  Qed.
  Lemma Gfunc_Bfunc x bs : Gfunc x bs -> exists f, Bfunc f bs.
  Proof.
    intros (b1 & b2 & -> & [Hl Ht] & He & _). destruct Hl as [ls w1 w2 Hn Hs]. eexists. constructor; [|exact He|].
    - constructor; [rewrite map_length; eassumption|apply seq_locals; eassumption].
    - rewrite <- flat_map_concat_map. fold (expand_locals ls). rewrite <- total_expand. assumption.
  Qed.
  Lemma Bfunc_Gfunc f bs : Bfunc f bs -> exists x, Gfunc x bs.
  Proof.
    intros [locs e b1 b2 Hl He Ht]. destruct Hl as [locs w1 w2 Hn Hs]. apply seq_locals_inv in Hs as (ls & Hs & ->).
    exists (ls, (e, existsb instruction_contains_data_index e)), (w1 ++ w2), b2. split; [reflexivity|]. split; [|split; [exact He|reflexivity]]. split.
    - constructor; [rewrite map_length in Hn; exact Hn|assumption].
    - rewrite <- flat_map_concat_map in Ht. fold (expand_locals ls) in Ht. rewrite <- total_expand in Ht. assumption.
  Qed.
  Lemma blames_code : Blames (parse_code : M R _ _) Fcode.
  Proof.
    unfold parse_code. eapply blames_ext.
    { apply blames_field with (K := fun n bs stop e => Ffunc (fst (fenced n bs stop)) (snd (fenced n bs stop)) e \/
        after_ (g_take n Gfunc) (fun z => if negb (snd z =? 0)%N then wrong (Code_EntrySizeMismatch n (snd z) (n - snd z)%N) else nothing) bs stop e);
        [apply parses_u32|apply blames_u32|]. intros n _.
      apply (blames_bind (with_take n inside)).
      - apply parses_with_take, parses_inside.
      - apply blames_take, blames_inside.
      - intros [[ls [ex d]] lim] (bs & HG). cbn [snd]. destruct (negb (lim =? 0)%N); [|apply blames_ret].
        unfold sub_u64. destruct HG as (_ & Hle & Hlim). cbn [snd] in Hlim. destruct (N.leb_spec lim n); [|exfalso; lia].
        apply blames_bind_ret, blames_throw. }
    intros bs stop e. unfold Fcode, field, after_. split; (intros [HF|(n & pre & rest & -> & Hn & HF)]; [left; exact HF|right]);
      exists n, pre, rest; (split; [reflexivity|]); (split; [assumption|]).
    - destruct HF as [HF|(z & w & rest' & -> & (HG & Hle & Hlim) & Hw)].
      + left. destruct (fenced n rest stop). exact HF.
      + right. destruct (N.eqb_spec (snd z) 0); cbn [negb] in Hw; [destruct Hw|]. unfold wrong in Hw. subst e.
        apply Gfunc_Bfunc in HG as (f & Hf). exists f, w, rest'. split; [reflexivity|]. split; [assumption|]. unfold lenN in *. split; [lia|].
        rewrite Hlim. f_equal; lia.
    - destruct HF as [HF|(f & w & rest' & -> & Hf & Hl & ->)].
      + left. destruct (fenced n rest stop). exact HF.
      + right. apply Bfunc_Gfunc in Hf as (x & Hx). exists (x, (n - N.of_nat (length w))%N), w, rest'. split; [reflexivity|].
        split; [split; [exact Hx|]; cbn; unfold lenN; split; [lia|reflexivity]|]. cbn [snd].
        destruct (N.eqb_spec (n - N.of_nat (length w)) 0); cbn [negb]; [exfalso; lia|]. unfold wrong. f_equal; lia.
  Qed.

  (** the decoder of the contents of a section *)
  Definition contents_of (k : SectionKind) : M R DecodeModuleError unit :=
    match k with
    | SK_Custom => _ <- map_err DM_DecodeCustomSection decode_section_custom ;; ret tt
    | SK_Type => _ <- map_err DM_DecodeTypeSection decode_type_section ;; ret tt
    | SK_Import => _ <- map_err DM_DecodeImportSection decode_import_section ;; ret tt
    | SK_Function => _ <- map_err DM_DecodeFunctionSection decode_function_section ;; ret tt
    | SK_Table => _ <- map_err DM_DecodeTableSection decode_table_section ;; ret tt
    | SK_Memory => _ <- map_err DM_DecodeMemorySection decode_memory_section ;; ret tt
    | SK_Tag => _ <- map_err DM_DecodeTagSection decode_tag_section ;; ret tt
    | SK_Global => _ <- map_err DM_DecodeGlobalSection decode_global_section ;; ret tt
    | SK_Export => _ <- map_err DM_DecodeExportSection decode_export_section ;; ret tt
    | SK_Start => _ <- map_err DM_DecodeStartSection decode_start_section ;; ret tt
    | SK_Element => _ <- map_err DM_DecodeElementSection decode_element_section ;; ret tt
    | SK_DataCount => _ <- map_err DM_DecodeDatacountSection decode_datacount_section ;; ret tt
    | SK_Code => _ <- map_err DM_DecodeCodeSection decode_code_section ;; ret tt
    | SK_Data => _ <- map_err DM_DecodeDataSection decode_data_section ;; ret tt
    end.
  Lemma blames_contents k : Blames (contents_of k) (Fcontents k).
  Proof.
    destruct k; unfold contents_of, Fcontents.
    - apply blames_pure; [|discriminate]. eapply blames_ext.
      { apply blames_map_err. unfold decode_section_custom. apply blames_field; [apply parses_name|apply blames_name|]. intros nm _.
        apply blames_last, blames_read_to_end. }
      intros bs stop e. unfold at_, field, at_, after_. split.
      + intros (e1 & [(e2 & HF & ->)|(nm & pre & rest & -> & Hnm & e2 & -> & ->)] & ->); [left; eauto|right]. exists nm, pre, rest. eauto 6.
      + intros [(e2 & HF & ->)|(nm & pre & rest & -> & Hnm & e2 & -> & ->)]; [eauto 6|]. eexists. split; [right; exists nm, pre, rest; eauto 6|reflexivity].
    - apply blames_pure; [|discriminate]. apply blames_at2, blames_map_err, blames_map_err, blames_list; [apply parses_rectype|apply blames_rectype].
    - apply blames_pure; [|discriminate]. apply blames_at2, blames_map_err, blames_map_err, blames_list; [apply parses_import|apply blames_import].
    - apply blames_pure; [|discriminate]. apply blames_at2, blames_map_err, blames_map_err, blames_list; [apply parses_typeidx|apply blames_typeidx].
    - apply blames_pure; [|discriminate]. apply blames_at2, blames_map_err, blames_map_err, blames_list; [apply parses_table|apply blames_table].
    - apply blames_pure; [|discriminate]. apply blames_at2, blames_map_err, blames_map_err, blames_list; [apply parses_memtype|apply blames_memtype].
    - apply blames_pure; [|discriminate]. apply blames_at2, blames_map_err, blames_map_err, blames_list; [apply parses_tagtype|apply blames_tagtype].
    - apply blames_pure; [|discriminate]. apply blames_at2, blames_map_err, blames_map_err, blames_list; [apply parses_global|apply blames_global].
    - apply blames_pure; [|discriminate]. apply blames_at2, blames_map_err, blames_map_err, blames_list; [apply parses_export|apply blames_export].
    - apply blames_pure; [|discriminate]. apply (blames_at2 (fun e => StartSecE (FuncIdxE e)) DM_DecodeStartSection). apply blames_map_err, blames_idx.
    - apply blames_pure; [|discriminate]. apply blames_at2, blames_map_err, blames_map_err, blames_list; [apply parses_elem|apply blames_elem].
    - apply blames_pure; [|discriminate]. apply blames_at2, blames_map_err, blames_map_err, blames_u32.
    - apply blames_pure; [|discriminate]. eapply blames_ext.
      { apply (blames_at2 CodeSec_DecodeList DM_DecodeCodeSection), blames_map_err, blames_map_err, blames_list; [apply parses_code|apply blames_code]. }
      intros bs stop e. unfold at_. split; intros (e' & HF & ->); exists e'; (split; [|reflexivity]); revert HF; apply Flist_map.
      + intros c w HG. apply Gcode_Bcode in HG. eauto.
      + intros c w HG. apply Bcode_Gcode in HG as (c' & HG & _). eauto.
    - apply blames_pure; [|discriminate]. apply blames_at2, blames_map_err, blames_map_err, blames_list; [apply parses_data|apply blames_data].
  Qed.
End Code.
