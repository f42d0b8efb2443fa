(** The module grammar is unambiguous down to its division into sections. *)
From Verif Require Import Model.Prelude Model.Io Model.Ast Model.Errors Model.Integer Model.Helpers Model.Types Model.Instr Model.Sections Model.Module.
From Verif Require Import Spec.Lang Spec.Types Spec.Instr Spec.Module Spec.Streams Spec.Layout.
From Verif Require Import Proofs.Machine Proofs.Reads Proofs.Parses Proofs.Leb Proofs.GHelpers Proofs.GTypes Proofs.GInstr Proofs.GControl Proofs.GSections Proofs.GModule Proofs.GAssemble Proofs.Safe Proofs.SafeWalk Proofs.Final Proofs.Components.
From Coq Require Import Lia ZifyBool ZifyNat ZifyN.

Lemma D_name : decodes (fun env => decode_name) Bname.
Proof. eapply decodes_of; intros env; [apply parses_name|apply safe_name]. Qed.
Lemma D_type : decodes (fun env => decode_type_section) (Blist Brectype).
Proof. eapply decodes_of; intros env; [apply parses_map_err, parses_list, parses_rectype|apply safe_type_section]. Qed.
Lemma D_import : decodes (fun env => decode_import_section) (Blist Bimport).
Proof. eapply decodes_of; intros env; [apply parses_map_err, parses_list, parses_import|apply safe_import_section]. Qed.
Lemma D_function : decodes (fun env => decode_function_section) (Blist Bidx).
Proof. eapply decodes_of; intros env; [apply parses_map_err, parses_list, parses_typeidx|apply safe_function_section]. Qed.
Lemma D_table : decodes (fun env => decode_table_section) (Blist Btable).
Proof. eapply decodes_of; intros env; [apply parses_map_err, parses_list, parses_table|apply safe_table_section]. Qed.
Lemma D_memory : decodes (fun env => decode_memory_section) (Blist Bmemtype).
Proof. eapply decodes_of; intros env; [apply parses_map_err, parses_list, parses_memtype|apply safe_memory_section]. Qed.
Lemma D_tag : decodes (fun env => decode_tag_section) (Blist Btagtype).
Proof. eapply decodes_of; intros env; [apply parses_map_err, parses_list, parses_tagtype|apply safe_tag_section]. Qed.
Lemma D_global : decodes (fun env => decode_global_section) (Blist Bglobal).
Proof. eapply decodes_of; intros env; [apply parses_map_err, parses_list, parses_global|apply safe_global_section]. Qed.
Lemma D_export : decodes (fun env => decode_export_section) (Blist Bexport).
Proof. eapply decodes_of; intros env; [apply parses_map_err, parses_list, parses_export|apply safe_export_section]. Qed.
Lemma D_start : decodes (fun env => decode_start_section) Bidx.
Proof. eapply decodes_of; intros env; [apply parses_map_err, parses_funcidx|apply safe_start_section]. Qed.
Lemma D_element : decodes (fun env => decode_element_section) (Blist Belem).
Proof. eapply decodes_of; intros env; [apply parses_map_err, parses_list, parses_elem|apply safe_element_section]. Qed.
Lemma D_datacount : decodes (fun env => decode_datacount_section) Bu32.
Proof. eapply decodes_of; intros env; [apply parses_map_err, parses_u32|apply safe_datacount_section]. Qed.
Lemma D_code : decodes (fun env => decode_code_section) (Blist Gcode).
Proof. eapply decodes_of; intros env; [apply parses_map_err, parses_list, parses_code|apply safe_code_section]. Qed.
Lemma D_data : decodes (fun env => decode_data_section) (Blist Bdata).
Proof. eapply decodes_of; intros env; [apply parses_map_err, parses_list, parses_data|apply safe_data_section]. Qed.

Lemma custom_unamb c1 c2 p : Bcustom c1 p -> Bcustom c2 p -> c1 = c2.
Proof.
  inversion 1 as [n1 k1 b1 HB1]; inversion 1 as [n2 k2 b2 HB2 Hc Hp]; subst.
  destruct (decodes_prefix_free _ _ D_name _ _ _ _ _ _ Hp HB2 HB1) as [-> ->]. apply app_inv_head in Hp as ->. reflexivity.
Qed.
Lemma contents_unamb x1 x2 p : kind_of x1 = kind_of x2 -> Bcontents x1 p -> Bcontents x2 p -> x1 = x2.
Proof.
  intros Hk B1 B2. inversion B1; subst; inversion B2; subst; try discriminate; f_equal.
  - eapply custom_unamb; eassumption.
  - eapply (decodes_unambiguous _ _ D_type); eassumption.
  - eapply (decodes_unambiguous _ _ D_import); eassumption.
  - eapply (decodes_unambiguous _ _ D_function); eassumption.
  - eapply (decodes_unambiguous _ _ D_table); eassumption.
  - eapply (decodes_unambiguous _ _ D_memory); eassumption.
  - eapply (decodes_unambiguous _ _ D_tag); eassumption.
  - eapply (decodes_unambiguous _ _ D_global); eassumption.
  - eapply (decodes_unambiguous _ _ D_export); eassumption.
  - eapply (decodes_unambiguous _ _ D_start); eassumption.
  - eapply (decodes_unambiguous _ _ D_element); eassumption.
  - eapply (decodes_unambiguous _ _ D_datacount); eassumption.
  - repeat match goal with HL : Blist Bcode _ _ |- _ => apply list_code_inv in HL as (? & ? & ->) end. f_equal.
    eapply (decodes_unambiguous _ _ D_code); eassumption.
  - eapply (decodes_unambiguous _ _ D_data); eassumption.
Qed.
Lemma id_of_inj k1 k2 : id_of k1 = id_of k2 -> k1 = k2.
Proof. destruct k1, k2; (reflexivity || discriminate). Qed.
Lemma part_unamb k1 k2 p1 p2 n1 n2 r1 r2 : Bu32 (N.of_nat (length p1)) n1 -> Bu32 (N.of_nat (length p2)) n2 ->
  id_of k1 :: n1 ++ p1 ++ r1 = id_of k2 :: n2 ++ p2 ++ r2 -> k1 = k2 /\ n1 = n2 /\ p1 = p2 /\ r1 = r2.
Proof.
  intros H1 H2 [= Hk Hq]. apply id_of_inj in Hk as ->.
  destruct (decodes_prefix_free _ _ decodes_u32 _ _ _ _ _ _ Hq H1 H2) as [Hl ->]. apply app_inv_head in Hq.
  assert (Hl' : length p1 = length p2) by lia.
  assert (E1 : p1 = p2).
  { apply (f_equal (firstn (length p1))) in Hq. rewrite firstn_app, firstn_all, Nat.sub_diag, firstn_O, app_nil_r in Hq.
    rewrite Hl' in Hq. rewrite firstn_app, firstn_all, Nat.sub_diag, firstn_O, app_nil_r in Hq. exact Hq. }
  subst. apply app_inv_head in Hq. auto.
Qed.
Lemma section_unamb y1 y2 b1 b2 r1 r2 : Bsection y1 b1 -> Bsection y2 b2 -> b1 ++ r1 = b2 ++ r2 -> y1 = y2 /\ b1 = b2 /\ r1 = r2.
Proof.
  inversion 1 as [x1 n1 p1 HU1 HC1]; inversion 1 as [x2 n2 p2 HU2 HC2]; subst. cbn [app]. rewrite <- !app_assoc. intros Hq.
  destruct (part_unamb _ _ _ _ _ _ _ _ HU1 HU2 Hq) as (Hk & -> & -> & ->). rewrite (contents_unamb _ _ _ Hk HC1 HC2). auto.
Qed.
Lemma section_cons y b : Bsection y b -> b <> [].
Proof. inversion 1; discriminate. Qed.
(** dividing the bytes divides the sections *)
Lemma sections_split xs1 : forall b1 b2 xs, Bseq Bsection xs1 b1 -> Bseq Bsection xs (b1 ++ b2) ->
  exists xs2, xs = xs1 ++ xs2 /\ Bseq Bsection xs2 b2.
Proof.
  induction xs1 as [|y xs1 IH]; intros b1 b2 xs H1 Hx.
  - inversion H1; subst. exists xs. auto.
  - inversion H1 as [|? ? c1 c2 Hy Hq]; subst. rewrite <- app_assoc in Hx.
    remember (c1 ++ c2 ++ b2) as w eqn:Ew. destruct Hx as [|z xs d1 d2 Hz Hq'].
    + apply section_cons in Hy. destruct c1; [congruence|discriminate].
    + destruct (section_unamb _ _ _ _ _ _ Hz Hy Ew) as (-> & -> & ->).
      destruct (IH _ _ _ Hq Hq') as (xs2 & -> & ?). exists xs2. auto.
Qed.
Lemma sections_unamb xs1 xs2 b : Bseq Bsection xs1 b -> Bseq Bsection xs2 b -> xs1 = xs2.
Proof.
  intros H1 H2. rewrite <- (app_nil_r b) in H2. destruct (sections_split _ _ _ _ H1 H2) as (xs3 & -> & Hn).
  remember [] as w eqn:Ew. destruct Hn as [|y xs c1 c2 Hy _]; [rewrite app_nil_r; reflexivity|].
  apply section_cons in Hy. destruct c1; [congruence|discriminate].
Qed.
Lemma sections_app xs1 xs2 b1 b2 : Bseq Bsection xs1 b1 -> Bseq Bsection xs2 b2 -> Bseq Bsection (xs1 ++ xs2) (b1 ++ b2).
Proof. intros H1 H2. induction H1 as [|y xs c1 c2 Hy _ IH]; [assumption|]. cbn. rewrite <- app_assoc. constructor; assumption. Qed.
Lemma module_unamb m1 m2 bs : Bmodule m1 bs -> Bmodule m2 bs -> m1 = m2.
Proof.
  intros H1 H2. pose proof (bigenv_ok (length bs)) as HS.
  pose proof (module_complete_slice (env := bigenv (length bs)) bs m1 HS H1). pose proof (module_complete_slice (env := bigenv (length bs)) bs m2 HS H2). congruence.
Qed.

(** ** layout *)
Lemma parts_unamb ps1 : forall ps2 b, parts ps1 b -> parts ps2 b -> ps1 = ps2.
Proof.
  induction ps1 as [|[k p] ps1 IH]; intros ps2 b H1 H2.
  - inversion H1; subst. inversion H2; reflexivity.
  - inversion H1 as [|? ? n1 ? r1 HU1 Hp1]; subst. remember (id_of k :: n1 ++ p ++ r1) as w eqn:Ew.
    destruct H2 as [|k2 p2 n2 ps2 r2 HU2 Hp2]; [discriminate|].
    destruct (part_unamb _ _ _ _ _ _ _ _ HU2 HU1 Ew) as (-> & -> & -> & ->). f_equal. eapply IH; eassumption.
Qed.
Lemma sections_parts xs b : Bseq Bsection xs b -> exists ps, parts ps b /\ Forall2 (fun y p => kind_of (fst y) = fst p /\ snd y = N.of_nat (length (snd p)) /\ Bcontents (fst y) (snd p)) xs ps.
Proof.
  induction 1 as [|y xs b1 b2 Hy _ (ps & Hp & HF)]; [exists []; split; constructor|].
  inversion Hy as [x n p HU HC]; subst. exists ((kind_of x, p) :: ps). split; [cbn [app]; rewrite <- app_assoc; constructor; assumption|].
  constructor; [cbn; auto|assumption].
Qed.
Lemma parts_sections xs ps b : parts ps b -> Forall2 (fun y p => kind_of (fst y) = fst p /\ snd y = N.of_nat (length (snd p)) /\ Bcontents (fst y) (snd p)) xs ps -> Bseq Bsection xs b.
Proof.
  intros Hp HF. revert b Hp. induction HF as [|[x n] [k p] xs ps (Hk & Hn & HC) _ IH]; intros b Hp; inversion Hp; subst; [constructor|]. cbn in *. subst.
  rewrite app_assoc, app_comm_cons. constructor; [constructor; assumption|]. apply IH. assumption.
Qed.
