(** C69, continued: instructions, sections, modules. *)
From Verif Require Import Model.Prelude Model.Io Model.Ast Model.Errors Model.Display Model.Module.
From Verif Require Import Spec.Lang Spec.Types Spec.Instr Spec.Module Spec.Streams Spec.Leb Spec.Layout Spec.Faults Spec.Diagnosis Spec.Honest Proofs.Decimal Proofs.Honest.
From Coq Require Import Bool Lia ZifyN ZifyNat ZifyBool String Ascii.
Local Open Scope string_scope.

#[local] Hint Resolve hn_fb hn_fc hn_fd : honest.
Lemma hn_op b : Hn (Fop b) n_instr.
Proof.
  unfold Fop. destruct b; hf.
Qed.
Lemma hn_instr : Hn Finstr n_instr.
Proof.
  intros bs stop e HF. induction HF as [stop|b rest stop e _ HF|b rest stop e _ _|bt w rest stop e _ HF|o hd is w rest stop e _ _ _ IH|hd is w rest stop _ _].
  - h.
  - exact (hn_op b _ _ _ HF).
  - h.
  - pose proof (hn_list Bcatch Fcatch n_catch hn_catch _ _ _ HF). h.
  - exact IH.
  - h.
Qed.
#[local] Hint Resolve hn_instr : honest.
Lemma hn_expr : Hn Fexpr n_expr.
Proof. intros bs stop e HF. destruct HF as [is w rest stop e _ HF|is w rest stop _]; [pose proof (hn_instr _ _ _ HF)|]; h. Qed.
#[local] Hint Resolve hn_expr : honest.
Lemma hn_import : Hn Fimport n_import. Proof. unfold Fimport. hf. Qed.
Lemma hn_table : Hn Ftable n_table.
Proof.
  assert (K1 : forall b, Hn (match b with x00 => field Tbl_DecodeTableType Ftabletype Btabletype (fun _ => at_ Tbl_DecodeExpression Fexpr) | _ => wrong (Tbl_UnexpectedMarkerByte b) end) n_table) by (intros b; hf).
  assert (K2 : Hn (at_ Tbl_DecodeTableType Ftabletype) n_table) by hf.
  intros [|b bs] stop e HF; [cbn [Ftable] in HF; subst e; h|]. destruct b; cbn [Ftable] in HF; first [exact (K2 _ _ _ HF)|idtac].
  destruct bs as [|b bs]; cbn [byte_] in HF; [subst e; h|exact (K1 b _ _ _ HF)].
Qed.
Lemma hn_global : Hn Fglobal n_global. Proof. unfold Fglobal. hf. Qed.
Lemma hn_export : Hn Fexport n_export. Proof. unfold Fexport. hf. Qed.
Lemma hn_elemkind : Hn Felemkind n_elemkind. Proof. unfold Felemkind. hf. Qed.
#[local] Hint Resolve hn_import hn_table hn_global hn_export hn_elemkind : honest.

(** numbers that are not those named *)
Ltac not_word := lazymatch goal with
  | |- ~ In _ ?ws => let ws' := eval vm_compute in ws in change ws with ws'; let Hi := fresh in intros Hi; cbn [In] in Hi;
      repeat (destruct Hi as [Hi|Hi]; [symmetry in Hi; revert Hi; first [apply dec_other; reflexivity | idtac]|]); [..|exact Hi] end.
Lemma h_elem_bitfield n : (7 < n)%N -> H (n_elem (El_InvalidBitfield n)).
Proof.
  intros Hn. apply h_leaf. apply (got_dec "invalid bitfield: expected value in range [0,7]" n).
  - reflexivity.
  - not_word.
    + intros E. change "0" with (dec 0) in E. apply dec_inj in E. lia.
    + intros E. change "7" with (dec 7) in E. apply dec_inj in E. lia.
  - intros a E. refine (not_after_blank "invalid bitfield: expected value in range" "[0,7]" n a eq_refl _ E). apply dec_other. reflexivity.
Qed.
Lemma h_data_bitfield n : (2 < n)%N -> H (n_data (Dat_InvalidBitfield n)).
Proof.
  intros Hn. apply h_leaf. apply (got_dec "invalid bitfield: expected 0 (passive), 1 or 2 (active)" n).
  - reflexivity.
  - not_word.
    + intros E. change "0" with (dec 0) in E. apply dec_inj in E. lia.
    + intros E. change "1" with (dec 1) in E. apply dec_inj in E. lia.
    + intros E. change "2" with (dec 2) in E. apply dec_inj in E. lia.
  - intros a E. refine (not_after_blank "invalid bitfield: expected 0 (passive), 1 or 2" "(active)" n a eq_refl _ E). apply dec_other. reflexivity.
Qed.
Lemma h_locals_bound total : (2 ^ 32 <= total)%N -> H (n_locals (Loc_LocalsCountOutOfBound (2 ^ 32 - 1)%N total)).
Proof.
  intros Ht. apply h_leaf. assert (Ne : dec total <> "4294967295") by (intros E; change "4294967295" with (dec 4294967295) in E; apply dec_inj in E; lia).
  apply (got_dec "too many locals: expected at most 4294967295" total).
  - reflexivity.
  - not_word. intros E. exact (Ne E).
  - intros a E. exact (not_after_blank "too many locals: expected at most" "4294967295" total a eq_refl Ne E).
Qed.
Lemma hn_elem : Hn Felem n_elem.
Proof.
  unfold Felem. cbv zeta. apply hn_field; [hf|]. intros n. destruct (N.ltb_spec 7 n) as [Hn|Hn].
  - intros bs stop e HF. assert (E : e = El_InvalidBitfield n) by (destruct n as [|[[[p|p|]|[p|p|]|]|[[p|p|]|[p|p|]|]|]]; first [exact HF|exfalso; clear -Hn; lia]).
    subst e. exact (h_elem_bitfield n Hn).
  - assert (C : In n [0; 1; 2; 3; 4; 5; 6; 7]%N) by (cbn [In]; lia). cbn [In] in C.
    repeat (destruct C as [<-|C]; [hf|]). destruct C.
Qed.
Lemma hn_data : Hn Fdata n_data.
Proof.
  unfold Fdata. cbv zeta. apply hn_field; [hf|]. intros n. destruct (N.ltb_spec 2 n) as [Hn|Hn].
  - intros bs stop e HF. assert (E : e = Dat_InvalidBitfield n) by (destruct n as [|[p|[p|p|]|]]; first [exact HF|exfalso; clear -Hn; lia]).
    subst e. exact (h_data_bitfield n Hn).
  - assert (C : In n [0; 1; 2]%N) by (cbn [In]; lia). cbn [In] in C.
    repeat (destruct C as [<-|C]; [hf|]). destruct C.
Qed.
Lemma hn_locals total : Hn (Flocals total) n_locals.
Proof.
  unfold Flocals. apply hn_field; [hf|]. intros n. destruct (N.ltb_spec (total + n) (2 ^ 32)) as [Hl|Hl]; [hf|].
  apply hn_wrong, h_locals_bound, Hl.
Qed.
Lemma hn_func : Hn Ffunc n_code.
Proof.
  unfold Ffunc. apply hn_field; [|intros _; hf]. intros bs stop e HF. apply h_message; [text|]. revert bs stop e HF.
  change (Hn Flocals_list (n_list n_locals)). unfold Flocals_list. apply hn_field; [apply hn_all; intros e; h|].
  intros n bs stop e (locs & w & rest & e' & _ & _ & _ & _ & HF & ->). pose proof (hn_locals _ _ _ _ HF). h.
Qed.
Lemma no_got_step c s : strip "; got " (String c s) = None -> no_got s -> no_got (String c s).
Proof.
  intros H1 H2 [|x said] got E.
  - cbn [append] in E. rewrite E in H1. change (strip "; got " ("; got " ++ got) = None) in H1. rewrite strip_app in H1. discriminate H1.
  - cbn [append] in E. injection E as _ E. exact (H2 said got E).
Qed.
Lemma h_entry n l c : H (n_code (Code_EntrySizeMismatch n l c)).
Proof.
  apply h_leaf, no_got_honest. apply no_got_app; [semi|]. apply no_got_app; [semi|]. change (" bytes; consumed " ++ ?x) with (String " " ("bytes; consumed " ++ x)).
  cbn [append]. repeat (apply no_got_step; [reflexivity|]). apply lacks_no_got. rewrite lacks_app, semi_dec. change (lacks ";" (" (leftover: " ++ dec l ++ ")") = true). semi.
Qed.
#[local] Hint Resolve h_entry : honest.
Lemma hn_code : Hn Fcode n_code.
Proof.
  unfold Fcode. apply hn_field; [hf|]. intros n rest stop e [HF|(f & w & rest' & _ & _ & _ & ->)]; [|h].
  destruct (fenced n rest stop) as [bs' stop']. exact (hn_func bs' stop' e HF).
Qed.
#[local] Hint Resolve hn_elem hn_data hn_code : honest.
Lemma hn_contents k : Hn (Fcontents k) n_module.
Proof.
  destruct k; unfold Fcontents; try solve [hf].
  apply hn_field; [hf|]. intros _ bs stop e (x & _ & ->). h.
Qed.

(** ** modules *)
Lemma h_size k n got : (got < n)%N -> H (n_module (DM_SectionSizeMismatch k n got)).
Proof.
  intros Hlt. apply h_leaf.
  replace (debug_section k ++ " section size mismatch: declared " ++ dec n ++ " bytes; got " ++ dec got)
    with ((debug_section k ++ " section size mismatch: declared" ++ " " ++ dec n ++ " bytes") ++ "; got " ++ dec got) by (rewrite !str_app_assoc; reflexivity).
  assert (E : debug_section k ++ " section size mismatch: declared" ++ " " ++ dec n ++ " bytes" = (debug_section k ++ " section size mismatch: declared") ++ " " ++ dec n ++ " bytes") by (rewrite !str_app_assoc; reflexivity).
  rewrite E. apply got_dec.
  - semi.
  - rewrite words_bytes. intros Hi. apply in_app_iff in Hi as [Hi|[Hi|[Hi|[]]]].
    + assert (Nw : ~ In (dec got) (words (debug_section k ++ " section size mismatch: declared"))) by (clear; destruct k; not_word). exact (Nw Hi).
    + apply dec_inj in Hi. lia.
    + symmetry in Hi. revert Hi. apply dec_other. reflexivity.
  - intros a Ea. refine (not_after_blank ((debug_section k ++ " section size mismatch: declared") ++ " " ++ dec n) "bytes" got a eq_refl _ _).
    + apply dec_other. reflexivity.
    + rewrite <- Ea, !str_app_assoc. reflexivity.
Qed.
Lemma h_datas len n : n <> len -> H (n_module (DM_DataCountDatasLenMismatch len n)).
Proof.
  intros Hne. apply h_leaf.
  replace ("Data Count section does not match Datas length: declared " ++ dec n ++ "; got " ++ dec len)
    with (("Data Count section does not match Datas length: declared" ++ " " ++ dec n) ++ "; got " ++ dec len) by (rewrite !str_app_assoc; reflexivity).
  assert (Ne : dec len <> dec n) by (intros E; apply dec_inj in E; congruence).
  apply got_dec.
  - semi.
  - rewrite words_between. intros Hi. apply in_app_iff in Hi as [Hi|[Hi|[]]]; [|congruence].
    assert (Nw : ~ In (dec len) (words "Data Count section does not match Datas length: declared")) by (clear; not_word). exact (Nw Hi).
  - intros a Ea. refine (not_after_blank _ (dec n) len a (lacks_dec " "%char n eq_refl) Ne Ea).
Qed.
Lemma h_section_id b : (forall k, b <> id_of k) -> H (n_module (DM_DecodeSectionHeader (Hdr_InvalidSectionId (InvalidSectionId b)))).
Proof.
  intros Hb.
  pose proof (Hb SK_Custom); pose proof (Hb SK_Type); pose proof (Hb SK_Import); pose proof (Hb SK_Function); pose proof (Hb SK_Table);
  pose proof (Hb SK_Memory); pose proof (Hb SK_Tag); pose proof (Hb SK_Global); pose proof (Hb SK_Export); pose proof (Hb SK_Start);
  pose proof (Hb SK_Element); pose proof (Hb SK_DataCount); pose proof (Hb SK_Code); pose proof (Hb SK_Data). clear Hb. cbn [id_of] in *.
  destruct b; first [contradiction|clear; h].
Qed.

(** the preamble *)
Lemma got_text (pre x : string) : lacks ";" pre = true -> lacks ";" x = true -> ~ In x (words pre) -> (forall a, pre <> a ++ " " ++ x) -> honest (pre ++ "; got " ++ x).
Proof.
  intros Hp Hx H1 H2 said got E. destruct (skip_first ";" pre ("; got " ++ x) said (" got " ++ got) Hp E) as (s2 & -> & E2). destruct s2 as [|c s2].
  - rewrite str_app_nil. assert (Eq : x = got) by (cbn [append] in E2; injection E2; auto). subst got. split; assumption.
  - exfalso. assert (Eq : " got " ++ x = s2 ++ String ";" (" got " ++ got)).
    { change ("; got " ++ x) with (String ";" (" got " ++ x)) in E2. change (String c s2 ++ ?x) with (String c (s2 ++ x)) in E2. exact (f_equal (fun s => match s with String _ s => s | "" => "" end) E2). }
    apply (f_equal (lacks ";")) in Eq. rewrite !lacks_app, Hx in Eq. cbn [lacks] in Eq. rewrite Ascii.eqb_refl, andb_false_r in Eq. discriminate Eq.
Qed.
Definition of_hex (s : string) : option byte := find (fun b => String.eqb (hex (Byte.to_N b)) s) (map (fun n => byte_of (N.of_nat n)) (seq 0 256)).
Lemma of_hex_ok b : of_hex (hex (Byte.to_N b)) = Some b. Proof. destruct b; vm_compute; reflexivity. Qed.
Definition rows (bs : list byte) : string := fold_right (fun b s => "    " ++ hex (Byte.to_N b) ++ "," ++ nl ++ s) "" bs.
Lemma rows_inj bs : forall bs', rows bs ++ "]" = rows bs' ++ "]" -> bs = bs'.
Proof.
  assert (L : forall b bs, rows (b :: bs) ++ "]" = ("    " ++ hex (Byte.to_N b)) ++ String "," (nl ++ rows bs ++ "]")) by (intros; unfold rows; cbn [fold_right]; rewrite !str_app_assoc; reflexivity).
  assert (C : forall b, lacks "," ("    " ++ hex (Byte.to_N b)) = true) by (intros b; rewrite lacks_app, lacks_hex; reflexivity).
  induction bs as [|b bs IH]; intros [|b' bs'] E.
  - reflexivity.
  - rewrite L in E. discriminate E.
  - rewrite L in E. discriminate E.
  - rewrite !L in E. apply cut_first in E as [E1 E2]; [|apply C|apply C]. assert (E3 : hex (Byte.to_N b) = hex (Byte.to_N b')) by exact (f_equal (fun s => match s with String _ (String _ (String _ (String _ s))) => s | _ => "" end) E1).
    pose proof (of_hex_ok b) as K. rewrite E3, of_hex_ok in K. injection K as <-. f_equal. apply IH.
    exact (f_equal (fun s => match s with String _ s => s | "" => "" end) E2).
Qed.
Lemma semi_bytes bs : lacks ";" (debug_bytes bs) = true.
Proof.
  unfold debug_bytes. rewrite !lacks_app. change (fold_right _ "" bs) with (rows bs). assert (E : lacks ";" (rows bs) = true); [|rewrite E; reflexivity].
  induction bs as [|b bs IH]; [reflexivity|]. unfold rows. cbn [fold_right]. fold (rows bs). rewrite !lacks_app, IH, lacks_hex by reflexivity. reflexivity.
Qed.
Lemma h_preamble got : got <> [x00; x61; x73; x6d; x01; x00; x00; x00] -> H (n_module (DM_ParsePreamble (Pre_Unexpected got))).
Proof.
  intros Hne. apply h_leaf. set (p := [x00; x61; x73; x6d; x01; x00; x00; x00]) in *.
  replace ("unexpected preamble: expected " ++ debug_bytes p ++ "; got " ++ debug_bytes got)
    with (("unexpected preamble: expected" ++ " " ++ debug_bytes p) ++ "; got " ++ debug_bytes got) by (rewrite !str_app_assoc; reflexivity).
  assert (O : forall bs, debug_bytes bs = String "[" (nl ++ rows bs ++ "]")) by reflexivity.
  apply got_text.
  - rewrite !lacks_app, semi_bytes. reflexivity.
  - apply semi_bytes.
  - rewrite O. intros Hi. assert (W : forallb all_word (words ("unexpected preamble: expected" ++ " " ++ debug_bytes p)) = true) by (vm_compute; reflexivity).
    rewrite forallb_forall in W. apply W in Hi. discriminate Hi.
  - intros a E. rewrite !O in E.
    replace ("unexpected preamble: expected" ++ " " ++ String "[" (nl ++ rows p ++ "]")) with ("unexpected preamble: expected " ++ String "[" (nl ++ rows p ++ "]")) in E by reflexivity.
    replace (a ++ " " ++ String "[" (nl ++ rows got ++ "]")) with ((a ++ " ") ++ String "[" (nl ++ rows got ++ "]")) in E by (rewrite str_app_assoc; reflexivity).
    apply skip_first in E as (a2 & _ & E); [|reflexivity]. destruct a2 as [|x a2].
    + apply Hne. symmetry. apply rows_inj. exact (f_equal (fun s => match s with String _ (String _ s) => s | _ => "" end) E).
    + assert (E' : nl ++ rows p ++ "]" = a2 ++ String "[" (nl ++ rows got ++ "]")) by exact (f_equal (fun s => match s with String _ s => s | "" => "" end) E).
      apply (f_equal (lacks "[")) in E'. rewrite (lacks_app _ a2) in E'. cbn [lacks] in E'. rewrite Ascii.eqb_refl, andb_false_r in E'. vm_compute in E'. discriminate E'.
Qed.

Theorem consistent bs stop e : diagnosis bs stop e -> H (n_module e).
Proof.
  intros D. destruct D as [_|_ Hp|xs w k _ _ _ _ _|xs w b rest _ _ _ Hb|xs w k rest e _ _ _ _|xs w k nb n rest e _ _ _ _ HW|xs w e _ _ _ _ HI].
  - h.
  - apply h_preamble. exact Hp.
  - h.
  - exact (h_section_id b Hb).
  - h.
  - destruct HW as [e [p _ _|_]|bs' stop' e _ _ HF|x q rest' e _ _ _ _ _ [l _|l m _ _]|x q rest' _ _ _ _ Hlt _|c _ _ Hlt _].
    + h.
    + h.
    + exact (hn_contents k bs' stop' e HF).
    + h.
    + h.
    + apply h_size. exact Hlt.
    + apply h_size. exact Hlt.
  - destruct HI as [_ _|n _ _ Hne|ls e i _ _ _ _ _].
    + h.
    + apply h_datas. exact Hne.
    + h.
Qed.
